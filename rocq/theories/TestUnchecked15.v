(** GENERATED by /verif/tools/gen4.py from /repo/for_tests/polkadot1003003_v15 and /repo/src/tests.rs: tests of the
    repository replayed on the model (tests of the fidelity of the model, not proofs of
    properties). *)
(** Docs are left out of the metadata. *)
From Verif Require Import Base Compact Types Indicators Decode Sign Meta Unchecked.
Fixpoint unhex (s : string) : bytes :=
  let v c := let n := N_of_ascii c in if (n <? 58)%N then (n - 48)%N else (n - 87)%N in
  match s with String a (String b r) => (16 * v a + v b)%N :: unhex r | _ => [] end.
Definition md_t0 : ty := 
 (Ty ["sp_core"%string; "crypto"%string; "AccountId32"%string] [] (TComposite [(Field None 1%N (Some "[u8; 32]"%string) [])]) []).
Definition md_t1 : ty := 
 (Ty [] [] (TArray 32%N 2%N) []).
Definition md_t2 : ty := 
 (Ty [] [] (TPrimitive (PrU U8)) []).
Definition md_t3 : ty := 
 (Ty ["frame_system"%string; "AccountInfo"%string] [("Nonce"%string,(Some 4%N)); ("AccountData"%string,(Some 5%N))] (TComposite [(Field (Some "nonce"%string) 4%N (Some "Nonce"%string) []); (Field (Some "consumers"%string) 4%N (Some "RefCount"%string) []); (Field (Some "providers"%string) 4%N (Some "RefCount"%string) []); (Field (Some "sufficients"%string) 4%N (Some "RefCount"%string) []); (Field (Some "data"%string) 5%N (Some "AccountData"%string) [])]) []).
Definition md_t4 : ty := 
 (Ty [] [] (TPrimitive (PrU U32)) []).
Definition md_t5 : ty := 
 (Ty ["pallet_balances"%string; "types"%string; "AccountData"%string] [("Balance"%string,(Some 6%N))] (TComposite [(Field (Some "free"%string) 6%N (Some "Balance"%string) []); (Field (Some "reserved"%string) 6%N (Some "Balance"%string) []); (Field (Some "frozen"%string) 6%N (Some "Balance"%string) []); (Field (Some "flags"%string) 7%N (Some "ExtraFlags"%string) [])]) []).
Definition md_t6 : ty := 
 (Ty [] [] (TPrimitive (PrU U128)) []).
Definition md_t7 : ty := 
 (Ty ["pallet_balances"%string; "types"%string; "ExtraFlags"%string] [] (TComposite [(Field None 6%N (Some "u128"%string) [])]) []).
Definition md_t8 : ty := 
 (Ty [] [] (TPrimitive PrBool) []).
Definition md_t9 : ty := 
 (Ty ["frame_support"%string; "dispatch"%string; "PerDispatchClass"%string] [("T"%string,(Some 10%N))] (TComposite [(Field (Some "normal"%string) 10%N (Some "T"%string) []); (Field (Some "operational"%string) 10%N (Some "T"%string) []); (Field (Some "mandatory"%string) 10%N (Some "T"%string) [])]) []).
Definition md_t10 : ty := 
 (Ty ["sp_weights"%string; "weight_v2"%string; "Weight"%string] [] (TComposite [(Field (Some "ref_time"%string) 11%N (Some "u64"%string) []); (Field (Some "proof_size"%string) 11%N (Some "u64"%string) [])]) []).
Definition md_t11 : ty := 
 (Ty [] [] (TCompact 12%N) []).
Definition md_t12 : ty := 
 (Ty [] [] (TPrimitive (PrU U64)) []).
Definition md_t13 : ty := 
 (Ty ["primitive_types"%string; "H256"%string] [] (TComposite [(Field None 1%N (Some "[u8; 32]"%string) [])]) []).
Definition md_t14 : ty := 
 (Ty [] [] (TSequence 2%N) []).
Definition md_t15 : ty := 
 (Ty ["sp_runtime"%string; "generic"%string; "digest"%string; "Digest"%string] [] (TComposite [(Field (Some "logs"%string) 16%N (Some "Vec<DigestItem>"%string) [])]) []).
Definition md_t16 : ty := 
 (Ty [] [] (TSequence 17%N) []).
Definition md_t17 : ty := 
 (Ty ["sp_runtime"%string; "generic"%string; "digest"%string; "DigestItem"%string] [] (TVariant [(Variant "PreRuntime"%string [(Field None 18%N (Some "ConsensusEngineId"%string) []); (Field None 14%N (Some "Vec<u8>"%string) [])] 6%N []); (Variant "Consensus"%string [(Field None 18%N (Some "ConsensusEngineId"%string) []); (Field None 14%N (Some "Vec<u8>"%string) [])] 4%N []); (Variant "Seal"%string [(Field None 18%N (Some "ConsensusEngineId"%string) []); (Field None 14%N (Some "Vec<u8>"%string) [])] 5%N []); (Variant "Other"%string [(Field None 14%N (Some "Vec<u8>"%string) [])] 0%N []); (Variant "RuntimeEnvironmentUpdated"%string [] 8%N [])]) []).
Definition md_t18 : ty := 
 (Ty [] [] (TArray 4%N 2%N) []).
Definition md_t19 : ty := 
 (Ty [] [] (TSequence 20%N) []).
Definition md_t20 : ty := 
 (Ty ["frame_system"%string; "EventRecord"%string] [("E"%string,(Some 21%N)); ("T"%string,(Some 13%N))] (TComposite [(Field (Some "phase"%string) 497%N (Some "Phase"%string) []); (Field (Some "event"%string) 21%N (Some "E"%string) []); (Field (Some "topics"%string) 101%N (Some "Vec<T>"%string) [])]) []).
Definition md_t21 : ty := 
 (Ty ["polkadot_runtime"%string; "RuntimeEvent"%string] [] (TVariant [(Variant "System"%string [(Field None 22%N (Some "frame_system::Event<Runtime>"%string) [])] 0%N []); (Variant "Scheduler"%string [(Field None 31%N (Some "pallet_scheduler::Event<Runtime>"%string) [])] 1%N []); (Variant "Preimage"%string [(Field None 36%N (Some "pallet_preimage::Event<Runtime>"%string) [])] 10%N []); (Variant "Indices"%string [(Field None 37%N (Some "pallet_indices::Event<Runtime>"%string) [])] 4%N []); (Variant "Balances"%string [(Field None 38%N (Some "pallet_balances::Event<Runtime>"%string) [])] 5%N []); (Variant "TransactionPayment"%string [(Field None 40%N (Some "pallet_transaction_payment::Event<Runtime>"%string) [])] 32%N []); (Variant "Staking"%string [(Field None 41%N (Some "pallet_staking::Event<Runtime>"%string) [])] 7%N []); (Variant "Offences"%string [(Field None 47%N (Some "pallet_offences::Event"%string) [])] 8%N []); (Variant "Session"%string [(Field None 49%N (Some "pallet_session::Event"%string) [])] 9%N []); (Variant "Grandpa"%string [(Field None 50%N (Some "pallet_grandpa::Event"%string) [])] 11%N []); (Variant "Treasury"%string [(Field None 54%N (Some "pallet_treasury::Event<Runtime>"%string) [])] 19%N []); (Variant "ConvictionVoting"%string [(Field None 89%N (Some "pallet_conviction_voting::Event<Runtime>"%string) [])] 20%N []); (Variant "Referenda"%string [(Field None 90%N (Some "pallet_referenda::Event<Runtime>"%string) [])] 21%N []); (Variant "Whitelist"%string [(Field None 449%N (Some "pallet_whitelist::Event<Runtime>"%string) [])] 23%N []); (Variant "Parameters"%string [(Field None 454%N (Some "pallet_parameters::Event<Runtime>"%string) [])] 27%N []); (Variant "Claims"%string [(Field None 460%N (Some "claims::Event<Runtime>"%string) [])] 24%N []); (Variant "Vesting"%string [(Field None 461%N (Some "pallet_vesting::Event<Runtime>"%string) [])] 25%N []); (Variant "Utility"%string [(Field None 462%N (Some "pallet_utility::Event"%string) [])] 26%N []); (Variant "Proxy"%string [(Field None 463%N (Some "pallet_proxy::Event<Runtime>"%string) [])] 29%N []); (Variant "Multisig"%string [(Field None 464%N (Some "pallet_multisig::Event<Runtime>"%string) [])] 30%N []); (Variant "Bounties"%string [(Field None 465%N (Some "pallet_bounties::Event<Runtime>"%string) [])] 34%N []); (Variant "ChildBounties"%string [(Field None 466%N (Some "pallet_child_bounties::Event<Runtime>"%string) [])] 38%N []); (Variant "ElectionProviderMultiPhase"%string [(Field None 467%N (Some "pallet_election_provider_multi_phase::Event<Runtime>"%string) [])] 36%N []); (Variant "VoterList"%string [(Field None 471%N (Some "pallet_bags_list::Event<Runtime, pallet_bags_list::Instance1>"%string) [])] 37%N []); (Variant "NominationPools"%string [(Field None 472%N (Some "pallet_nomination_pools::Event<Runtime>"%string) [])] 39%N []); (Variant "FastUnstake"%string [(Field None 473%N (Some "pallet_fast_unstake::Event<Runtime>"%string) [])] 40%N []); (Variant "ParaInclusion"%string [(Field None 474%N (Some "parachains_inclusion::Event<Runtime>"%string) [])] 53%N []); (Variant "Paras"%string [(Field None 478%N (Some "parachains_paras::Event"%string) [])] 56%N []); (Variant "Hrmp"%string [(Field None 479%N (Some "parachains_hrmp::Event<Runtime>"%string) [])] 60%N []); (Variant "ParasDisputes"%string [(Field None 480%N (Some "parachains_disputes::Event<Runtime>"%string) [])] 62%N []); (Variant "OnDemand"%string [(Field None 483%N (Some "parachains_assigner_on_demand::Event<Runtime>"%string) [])] 64%N []); (Variant "Registrar"%string [(Field None 484%N (Some "paras_registrar::Event<Runtime>"%string) [])] 70%N []); (Variant "Slots"%string [(Field None 485%N (Some "slots::Event<Runtime>"%string) [])] 71%N []); (Variant "Auctions"%string [(Field None 486%N (Some "auctions::Event<Runtime>"%string) [])] 72%N []); (Variant "Crowdloan"%string [(Field None 487%N (Some "crowdloan::Event<Runtime>"%string) [])] 73%N []); (Variant "Coretime"%string [(Field None 488%N (Some "coretime::Event<Runtime>"%string) [])] 74%N []); (Variant "StateTrieMigration"%string [(Field None 489%N (Some "pallet_state_trie_migration::Event<Runtime>"%string) [])] 98%N []); (Variant "XcmPallet"%string [(Field None 492%N (Some "pallet_xcm::Event<Runtime>"%string) [])] 99%N []); (Variant "MessageQueue"%string [(Field None 494%N (Some "pallet_message_queue::Event<Runtime>"%string) [])] 100%N []); (Variant "AssetRate"%string [(Field None 496%N (Some "pallet_asset_rate::Event<Runtime>"%string) [])] 101%N [])]) []).
Definition md_t22 : ty := 
 (Ty ["frame_system"%string; "pallet"%string; "Event"%string] [("T"%string,None)] (TVariant [(Variant "ExtrinsicSuccess"%string [(Field (Some "dispatch_info"%string) 23%N (Some "DispatchInfo"%string) [])] 0%N []); (Variant "ExtrinsicFailed"%string [(Field (Some "dispatch_error"%string) 26%N (Some "DispatchError"%string) []); (Field (Some "dispatch_info"%string) 23%N (Some "DispatchInfo"%string) [])] 1%N []); (Variant "CodeUpdated"%string [] 2%N []); (Variant "NewAccount"%string [(Field (Some "account"%string) 0%N (Some "T::AccountId"%string) [])] 3%N []); (Variant "KilledAccount"%string [(Field (Some "account"%string) 0%N (Some "T::AccountId"%string) [])] 4%N []); (Variant "Remarked"%string [(Field (Some "sender"%string) 0%N (Some "T::AccountId"%string) []); (Field (Some "hash"%string) 13%N (Some "T::Hash"%string) [])] 5%N []); (Variant "UpgradeAuthorized"%string [(Field (Some "code_hash"%string) 13%N (Some "T::Hash"%string) []); (Field (Some "check_version"%string) 8%N (Some "bool"%string) [])] 6%N [])]) []).
Definition md_t23 : ty := 
 (Ty ["frame_support"%string; "dispatch"%string; "DispatchInfo"%string] [] (TComposite [(Field (Some "weight"%string) 10%N (Some "Weight"%string) []); (Field (Some "class"%string) 24%N (Some "DispatchClass"%string) []); (Field (Some "pays_fee"%string) 25%N (Some "Pays"%string) [])]) []).
Definition md_t24 : ty := 
 (Ty ["frame_support"%string; "dispatch"%string; "DispatchClass"%string] [] (TVariant [(Variant "Normal"%string [] 0%N []); (Variant "Operational"%string [] 1%N []); (Variant "Mandatory"%string [] 2%N [])]) []).
Definition md_t25 : ty := 
 (Ty ["frame_support"%string; "dispatch"%string; "Pays"%string] [] (TVariant [(Variant "Yes"%string [] 0%N []); (Variant "No"%string [] 1%N [])]) []).
Definition md_t26 : ty := 
 (Ty ["sp_runtime"%string; "DispatchError"%string] [] (TVariant [(Variant "Other"%string [] 0%N []); (Variant "CannotLookup"%string [] 1%N []); (Variant "BadOrigin"%string [] 2%N []); (Variant "Module"%string [(Field None 27%N (Some "ModuleError"%string) [])] 3%N []); (Variant "ConsumerRemaining"%string [] 4%N []); (Variant "NoProviders"%string [] 5%N []); (Variant "TooManyConsumers"%string [] 6%N []); (Variant "Token"%string [(Field None 28%N (Some "TokenError"%string) [])] 7%N []); (Variant "Arithmetic"%string [(Field None 29%N (Some "ArithmeticError"%string) [])] 8%N []); (Variant "Transactional"%string [(Field None 30%N (Some "TransactionalError"%string) [])] 9%N []); (Variant "Exhausted"%string [] 10%N []); (Variant "Corruption"%string [] 11%N []); (Variant "Unavailable"%string [] 12%N []); (Variant "RootNotAllowed"%string [] 13%N [])]) []).
Definition md_t27 : ty := 
 (Ty ["sp_runtime"%string; "ModuleError"%string] [] (TComposite [(Field (Some "index"%string) 2%N (Some "u8"%string) []); (Field (Some "error"%string) 18%N (Some "[u8; MAX_MODULE_ERROR_ENCODED_SIZE]"%string) [])]) []).
Definition md_t28 : ty := 
 (Ty ["sp_runtime"%string; "TokenError"%string] [] (TVariant [(Variant "FundsUnavailable"%string [] 0%N []); (Variant "OnlyProvider"%string [] 1%N []); (Variant "BelowMinimum"%string [] 2%N []); (Variant "CannotCreate"%string [] 3%N []); (Variant "UnknownAsset"%string [] 4%N []); (Variant "Frozen"%string [] 5%N []); (Variant "Unsupported"%string [] 6%N []); (Variant "CannotCreateHold"%string [] 7%N []); (Variant "NotExpendable"%string [] 8%N []); (Variant "Blocked"%string [] 9%N [])]) []).
Definition md_t29 : ty := 
 (Ty ["sp_arithmetic"%string; "ArithmeticError"%string] [] (TVariant [(Variant "Underflow"%string [] 0%N []); (Variant "Overflow"%string [] 1%N []); (Variant "DivisionByZero"%string [] 2%N [])]) []).
Definition md_t30 : ty := 
 (Ty ["sp_runtime"%string; "TransactionalError"%string] [] (TVariant [(Variant "LimitReached"%string [] 0%N []); (Variant "NoLayer"%string [] 1%N [])]) []).
Definition md_t31 : ty := 
 (Ty ["pallet_scheduler"%string; "pallet"%string; "Event"%string] [("T"%string,None)] (TVariant [(Variant "Scheduled"%string [(Field (Some "when"%string) 4%N (Some "BlockNumberFor<T>"%string) []); (Field (Some "index"%string) 4%N (Some "u32"%string) [])] 0%N []); (Variant "Canceled"%string [(Field (Some "when"%string) 4%N (Some "BlockNumberFor<T>"%string) []); (Field (Some "index"%string) 4%N (Some "u32"%string) [])] 1%N []); (Variant "Dispatched"%string [(Field (Some "task"%string) 32%N (Some "TaskAddress<BlockNumberFor<T>>"%string) []); (Field (Some "id"%string) 33%N (Some "Option<TaskName>"%string) []); (Field (Some "result"%string) 34%N (Some "DispatchResult"%string) [])] 2%N []); (Variant "RetrySet"%string [(Field (Some "task"%string) 32%N (Some "TaskAddress<BlockNumberFor<T>>"%string) []); (Field (Some "id"%string) 33%N (Some "Option<TaskName>"%string) []); (Field (Some "period"%string) 4%N (Some "BlockNumberFor<T>"%string) []); (Field (Some "retries"%string) 2%N (Some "u8"%string) [])] 3%N []); (Variant "RetryCancelled"%string [(Field (Some "task"%string) 32%N (Some "TaskAddress<BlockNumberFor<T>>"%string) []); (Field (Some "id"%string) 33%N (Some "Option<TaskName>"%string) [])] 4%N []); (Variant "CallUnavailable"%string [(Field (Some "task"%string) 32%N (Some "TaskAddress<BlockNumberFor<T>>"%string) []); (Field (Some "id"%string) 33%N (Some "Option<TaskName>"%string) [])] 5%N []); (Variant "PeriodicFailed"%string [(Field (Some "task"%string) 32%N (Some "TaskAddress<BlockNumberFor<T>>"%string) []); (Field (Some "id"%string) 33%N (Some "Option<TaskName>"%string) [])] 6%N []); (Variant "RetryFailed"%string [(Field (Some "task"%string) 32%N (Some "TaskAddress<BlockNumberFor<T>>"%string) []); (Field (Some "id"%string) 33%N (Some "Option<TaskName>"%string) [])] 7%N []); (Variant "PermanentlyOverweight"%string [(Field (Some "task"%string) 32%N (Some "TaskAddress<BlockNumberFor<T>>"%string) []); (Field (Some "id"%string) 33%N (Some "Option<TaskName>"%string) [])] 8%N [])]) []).
Definition md_t32 : ty := 
 (Ty [] [] (TTuple [4%N; 4%N]) []).
Definition md_t33 : ty := 
 (Ty ["Option"%string] [("T"%string,(Some 1%N))] (TVariant [(Variant "None"%string [] 0%N []); (Variant "Some"%string [(Field None 1%N None [])] 1%N [])]) []).
Definition md_t34 : ty := 
 (Ty ["Result"%string] [("T"%string,(Some 35%N)); ("E"%string,(Some 26%N))] (TVariant [(Variant "Ok"%string [(Field None 35%N None [])] 0%N []); (Variant "Err"%string [(Field None 26%N None [])] 1%N [])]) []).
Definition md_t35 : ty := 
 (Ty [] [] (TTuple []) []).
Definition md_t36 : ty := 
 (Ty ["pallet_preimage"%string; "pallet"%string; "Event"%string] [("T"%string,None)] (TVariant [(Variant "Noted"%string [(Field (Some "hash"%string) 13%N (Some "T::Hash"%string) [])] 0%N []); (Variant "Requested"%string [(Field (Some "hash"%string) 13%N (Some "T::Hash"%string) [])] 1%N []); (Variant "Cleared"%string [(Field (Some "hash"%string) 13%N (Some "T::Hash"%string) [])] 2%N [])]) []).
Definition md_t37 : ty := 
 (Ty ["pallet_indices"%string; "pallet"%string; "Event"%string] [("T"%string,None)] (TVariant [(Variant "IndexAssigned"%string [(Field (Some "who"%string) 0%N (Some "T::AccountId"%string) []); (Field (Some "index"%string) 4%N (Some "T::AccountIndex"%string) [])] 0%N []); (Variant "IndexFreed"%string [(Field (Some "index"%string) 4%N (Some "T::AccountIndex"%string) [])] 1%N []); (Variant "IndexFrozen"%string [(Field (Some "index"%string) 4%N (Some "T::AccountIndex"%string) []); (Field (Some "who"%string) 0%N (Some "T::AccountId"%string) [])] 2%N [])]) []).
Definition md_t38 : ty := 
 (Ty ["pallet_balances"%string; "pallet"%string; "Event"%string] [("T"%string,None); ("I"%string,None)] (TVariant [(Variant "Endowed"%string [(Field (Some "account"%string) 0%N (Some "T::AccountId"%string) []); (Field (Some "free_balance"%string) 6%N (Some "T::Balance"%string) [])] 0%N []); (Variant "DustLost"%string [(Field (Some "account"%string) 0%N (Some "T::AccountId"%string) []); (Field (Some "amount"%string) 6%N (Some "T::Balance"%string) [])] 1%N []); (Variant "Transfer"%string [(Field (Some "from"%string) 0%N (Some "T::AccountId"%string) []); (Field (Some "to"%string) 0%N (Some "T::AccountId"%string) []); (Field (Some "amount"%string) 6%N (Some "T::Balance"%string) [])] 2%N []); (Variant "BalanceSet"%string [(Field (Some "who"%string) 0%N (Some "T::AccountId"%string) []); (Field (Some "free"%string) 6%N (Some "T::Balance"%string) [])] 3%N []); (Variant "Reserved"%string [(Field (Some "who"%string) 0%N (Some "T::AccountId"%string) []); (Field (Some "amount"%string) 6%N (Some "T::Balance"%string) [])] 4%N []); (Variant "Unreserved"%string [(Field (Some "who"%string) 0%N (Some "T::AccountId"%string) []); (Field (Some "amount"%string) 6%N (Some "T::Balance"%string) [])] 5%N []); (Variant "ReserveRepatriated"%string [(Field (Some "from"%string) 0%N (Some "T::AccountId"%string) []); (Field (Some "to"%string) 0%N (Some "T::AccountId"%string) []); (Field (Some "amount"%string) 6%N (Some "T::Balance"%string) []); (Field (Some "destination_status"%string) 39%N (Some "Status"%string) [])] 6%N []); (Variant "Deposit"%string [(Field (Some "who"%string) 0%N (Some "T::AccountId"%string) []); (Field (Some "amount"%string) 6%N (Some "T::Balance"%string) [])] 7%N []); (Variant "Withdraw"%string [(Field (Some "who"%string) 0%N (Some "T::AccountId"%string) []); (Field (Some "amount"%string) 6%N (Some "T::Balance"%string) [])] 8%N []); (Variant "Slashed"%string [(Field (Some "who"%string) 0%N (Some "T::AccountId"%string) []); (Field (Some "amount"%string) 6%N (Some "T::Balance"%string) [])] 9%N []); (Variant "Minted"%string [(Field (Some "who"%string) 0%N (Some "T::AccountId"%string) []); (Field (Some "amount"%string) 6%N (Some "T::Balance"%string) [])] 10%N []); (Variant "Burned"%string [(Field (Some "who"%string) 0%N (Some "T::AccountId"%string) []); (Field (Some "amount"%string) 6%N (Some "T::Balance"%string) [])] 11%N []); (Variant "Suspended"%string [(Field (Some "who"%string) 0%N (Some "T::AccountId"%string) []); (Field (Some "amount"%string) 6%N (Some "T::Balance"%string) [])] 12%N []); (Variant "Restored"%string [(Field (Some "who"%string) 0%N (Some "T::AccountId"%string) []); (Field (Some "amount"%string) 6%N (Some "T::Balance"%string) [])] 13%N []); (Variant "Upgraded"%string [(Field (Some "who"%string) 0%N (Some "T::AccountId"%string) [])] 14%N []); (Variant "Issued"%string [(Field (Some "amount"%string) 6%N (Some "T::Balance"%string) [])] 15%N []); (Variant "Rescinded"%string [(Field (Some "amount"%string) 6%N (Some "T::Balance"%string) [])] 16%N []); (Variant "Locked"%string [(Field (Some "who"%string) 0%N (Some "T::AccountId"%string) []); (Field (Some "amount"%string) 6%N (Some "T::Balance"%string) [])] 17%N []); (Variant "Unlocked"%string [(Field (Some "who"%string) 0%N (Some "T::AccountId"%string) []); (Field (Some "amount"%string) 6%N (Some "T::Balance"%string) [])] 18%N []); (Variant "Frozen"%string [(Field (Some "who"%string) 0%N (Some "T::AccountId"%string) []); (Field (Some "amount"%string) 6%N (Some "T::Balance"%string) [])] 19%N []); (Variant "Thawed"%string [(Field (Some "who"%string) 0%N (Some "T::AccountId"%string) []); (Field (Some "amount"%string) 6%N (Some "T::Balance"%string) [])] 20%N []); (Variant "TotalIssuanceForced"%string [(Field (Some "old"%string) 6%N (Some "T::Balance"%string) []); (Field (Some "new"%string) 6%N (Some "T::Balance"%string) [])] 21%N [])]) []).
Definition md_t39 : ty := 
 (Ty ["frame_support"%string; "traits"%string; "tokens"%string; "misc"%string; "BalanceStatus"%string] [] (TVariant [(Variant "Free"%string [] 0%N []); (Variant "Reserved"%string [] 1%N [])]) []).
Definition md_t40 : ty := 
 (Ty ["pallet_transaction_payment"%string; "pallet"%string; "Event"%string] [("T"%string,None)] (TVariant [(Variant "TransactionFeePaid"%string [(Field (Some "who"%string) 0%N (Some "T::AccountId"%string) []); (Field (Some "actual_fee"%string) 6%N (Some "BalanceOf<T>"%string) []); (Field (Some "tip"%string) 6%N (Some "BalanceOf<T>"%string) [])] 0%N [])]) []).
Definition md_t41 : ty := 
 (Ty ["pallet_staking"%string; "pallet"%string; "pallet"%string; "Event"%string] [("T"%string,None)] (TVariant [(Variant "EraPaid"%string [(Field (Some "era_index"%string) 4%N (Some "EraIndex"%string) []); (Field (Some "validator_payout"%string) 6%N (Some "BalanceOf<T>"%string) []); (Field (Some "remainder"%string) 6%N (Some "BalanceOf<T>"%string) [])] 0%N []); (Variant "Rewarded"%string [(Field (Some "stash"%string) 0%N (Some "T::AccountId"%string) []); (Field (Some "dest"%string) 42%N (Some "RewardDestination<T::AccountId>"%string) []); (Field (Some "amount"%string) 6%N (Some "BalanceOf<T>"%string) [])] 1%N []); (Variant "Slashed"%string [(Field (Some "staker"%string) 0%N (Some "T::AccountId"%string) []); (Field (Some "amount"%string) 6%N (Some "BalanceOf<T>"%string) [])] 2%N []); (Variant "SlashReported"%string [(Field (Some "validator"%string) 0%N (Some "T::AccountId"%string) []); (Field (Some "fraction"%string) 43%N (Some "Perbill"%string) []); (Field (Some "slash_era"%string) 4%N (Some "EraIndex"%string) [])] 3%N []); (Variant "OldSlashingReportDiscarded"%string [(Field (Some "session_index"%string) 4%N (Some "SessionIndex"%string) [])] 4%N []); (Variant "StakersElected"%string [] 5%N []); (Variant "Bonded"%string [(Field (Some "stash"%string) 0%N (Some "T::AccountId"%string) []); (Field (Some "amount"%string) 6%N (Some "BalanceOf<T>"%string) [])] 6%N []); (Variant "Unbonded"%string [(Field (Some "stash"%string) 0%N (Some "T::AccountId"%string) []); (Field (Some "amount"%string) 6%N (Some "BalanceOf<T>"%string) [])] 7%N []); (Variant "Withdrawn"%string [(Field (Some "stash"%string) 0%N (Some "T::AccountId"%string) []); (Field (Some "amount"%string) 6%N (Some "BalanceOf<T>"%string) [])] 8%N []); (Variant "Kicked"%string [(Field (Some "nominator"%string) 0%N (Some "T::AccountId"%string) []); (Field (Some "stash"%string) 0%N (Some "T::AccountId"%string) [])] 9%N []); (Variant "StakingElectionFailed"%string [] 10%N []); (Variant "Chilled"%string [(Field (Some "stash"%string) 0%N (Some "T::AccountId"%string) [])] 11%N []); (Variant "PayoutStarted"%string [(Field (Some "era_index"%string) 4%N (Some "EraIndex"%string) []); (Field (Some "validator_stash"%string) 0%N (Some "T::AccountId"%string) [])] 12%N []); (Variant "ValidatorPrefsSet"%string [(Field (Some "stash"%string) 0%N (Some "T::AccountId"%string) []); (Field (Some "prefs"%string) 44%N (Some "ValidatorPrefs"%string) [])] 13%N []); (Variant "SnapshotVotersSizeExceeded"%string [(Field (Some "size"%string) 4%N (Some "u32"%string) [])] 14%N []); (Variant "SnapshotTargetsSizeExceeded"%string [(Field (Some "size"%string) 4%N (Some "u32"%string) [])] 15%N []); (Variant "ForceEra"%string [(Field (Some "mode"%string) 46%N (Some "Forcing"%string) [])] 16%N []); (Variant "ControllerBatchDeprecated"%string [(Field (Some "failures"%string) 4%N (Some "u32"%string) [])] 17%N [])]) []).
Definition md_t42 : ty := 
 (Ty ["pallet_staking"%string; "RewardDestination"%string] [("AccountId"%string,(Some 0%N))] (TVariant [(Variant "Staked"%string [] 0%N []); (Variant "Stash"%string [] 1%N []); (Variant "Controller"%string [] 2%N []); (Variant "Account"%string [(Field None 0%N (Some "AccountId"%string) [])] 3%N []); (Variant "None"%string [] 4%N [])]) []).
Definition md_t43 : ty := 
 (Ty ["sp_arithmetic"%string; "per_things"%string; "Perbill"%string] [] (TComposite [(Field None 4%N (Some "u32"%string) [])]) []).
Definition md_t44 : ty := 
 (Ty ["pallet_staking"%string; "ValidatorPrefs"%string] [] (TComposite [(Field (Some "commission"%string) 45%N (Some "Perbill"%string) []); (Field (Some "blocked"%string) 8%N (Some "bool"%string) [])]) []).
Definition md_t45 : ty := 
 (Ty [] [] (TCompact 43%N) []).
Definition md_t46 : ty := 
 (Ty ["pallet_staking"%string; "Forcing"%string] [] (TVariant [(Variant "NotForcing"%string [] 0%N []); (Variant "ForceNew"%string [] 1%N []); (Variant "ForceNone"%string [] 2%N []); (Variant "ForceAlways"%string [] 3%N [])]) []).
Definition md_t47 : ty := 
 (Ty ["pallet_offences"%string; "pallet"%string; "Event"%string] [] (TVariant [(Variant "Offence"%string [(Field (Some "kind"%string) 48%N (Some "Kind"%string) []); (Field (Some "timeslot"%string) 14%N (Some "OpaqueTimeSlot"%string) [])] 0%N [])]) []).
Definition md_t48 : ty := 
 (Ty [] [] (TArray 16%N 2%N) []).
Definition md_t49 : ty := 
 (Ty ["pallet_session"%string; "pallet"%string; "Event"%string] [] (TVariant [(Variant "NewSession"%string [(Field (Some "session_index"%string) 4%N (Some "SessionIndex"%string) [])] 0%N [])]) []).
Definition md_t50 : ty := 
 (Ty ["pallet_grandpa"%string; "pallet"%string; "Event"%string] [] (TVariant [(Variant "NewAuthorities"%string [(Field (Some "authority_set"%string) 51%N (Some "AuthorityList"%string) [])] 0%N []); (Variant "Paused"%string [] 1%N []); (Variant "Resumed"%string [] 2%N [])]) []).
Definition md_t51 : ty := 
 (Ty [] [] (TSequence 52%N) []).
Definition md_t52 : ty := 
 (Ty [] [] (TTuple [53%N; 12%N]) []).
Definition md_t53 : ty := 
 (Ty ["sp_consensus_grandpa"%string; "app"%string; "Public"%string] [] (TComposite [(Field None 1%N (Some "ed25519::Public"%string) [])]) []).
Definition md_t54 : ty := 
 (Ty ["pallet_treasury"%string; "pallet"%string; "Event"%string] [("T"%string,None); ("I"%string,None)] (TVariant [(Variant "Spending"%string [(Field (Some "budget_remaining"%string) 6%N (Some "BalanceOf<T, I>"%string) [])] 0%N []); (Variant "Awarded"%string [(Field (Some "proposal_index"%string) 4%N (Some "ProposalIndex"%string) []); (Field (Some "award"%string) 6%N (Some "BalanceOf<T, I>"%string) []); (Field (Some "account"%string) 0%N (Some "T::AccountId"%string) [])] 1%N []); (Variant "Burnt"%string [(Field (Some "burnt_funds"%string) 6%N (Some "BalanceOf<T, I>"%string) [])] 2%N []); (Variant "Rollover"%string [(Field (Some "rollover_balance"%string) 6%N (Some "BalanceOf<T, I>"%string) [])] 3%N []); (Variant "Deposit"%string [(Field (Some "value"%string) 6%N (Some "BalanceOf<T, I>"%string) [])] 4%N []); (Variant "SpendApproved"%string [(Field (Some "proposal_index"%string) 4%N (Some "ProposalIndex"%string) []); (Field (Some "amount"%string) 6%N (Some "BalanceOf<T, I>"%string) []); (Field (Some "beneficiary"%string) 0%N (Some "T::AccountId"%string) [])] 5%N []); (Variant "UpdatedInactive"%string [(Field (Some "reactivated"%string) 6%N (Some "BalanceOf<T, I>"%string) []); (Field (Some "deactivated"%string) 6%N (Some "BalanceOf<T, I>"%string) [])] 6%N []); (Variant "AssetSpendApproved"%string [(Field (Some "index"%string) 4%N (Some "SpendIndex"%string) []); (Field (Some "asset_kind"%string) 55%N (Some "T::AssetKind"%string) []); (Field (Some "amount"%string) 6%N (Some "AssetBalanceOf<T, I>"%string) []); (Field (Some "beneficiary"%string) 81%N (Some "T::Beneficiary"%string) []); (Field (Some "valid_from"%string) 4%N (Some "BlockNumberFor<T>"%string) []); (Field (Some "expire_at"%string) 4%N (Some "BlockNumberFor<T>"%string) [])] 7%N []); (Variant "AssetSpendVoided"%string [(Field (Some "index"%string) 4%N (Some "SpendIndex"%string) [])] 8%N []); (Variant "Paid"%string [(Field (Some "index"%string) 4%N (Some "SpendIndex"%string) []); (Field (Some "payment_id"%string) 12%N (Some "<T::Paymaster as Pay>::Id"%string) [])] 9%N []); (Variant "PaymentFailed"%string [(Field (Some "index"%string) 4%N (Some "SpendIndex"%string) []); (Field (Some "payment_id"%string) 12%N (Some "<T::Paymaster as Pay>::Id"%string) [])] 10%N []); (Variant "SpendProcessed"%string [(Field (Some "index"%string) 4%N (Some "SpendIndex"%string) [])] 11%N [])]) []).
Definition md_t55 : ty := 
 (Ty ["polkadot_runtime_common"%string; "impls"%string; "VersionedLocatableAsset"%string] [] (TVariant [(Variant "V3"%string [(Field (Some "location"%string) 56%N (Some "xcm::v3::Location"%string) []); (Field (Some "asset_id"%string) 66%N (Some "xcm::v3::AssetId"%string) [])] 3%N []); (Variant "V4"%string [(Field (Some "location"%string) 67%N (Some "xcm::v4::Location"%string) []); (Field (Some "asset_id"%string) 80%N (Some "xcm::v4::AssetId"%string) [])] 4%N [])]) []).
Definition md_t56 : ty := 
 (Ty ["staging_xcm"%string; "v3"%string; "multilocation"%string; "MultiLocation"%string] [] (TComposite [(Field (Some "parents"%string) 2%N (Some "u8"%string) []); (Field (Some "interior"%string) 57%N (Some "Junctions"%string) [])]) []).
Definition md_t57 : ty := 
 (Ty ["xcm"%string; "v3"%string; "junctions"%string; "Junctions"%string] [] (TVariant [(Variant "Here"%string [] 0%N []); (Variant "X1"%string [(Field None 58%N (Some "Junction"%string) [])] 1%N []); (Variant "X2"%string [(Field None 58%N (Some "Junction"%string) []); (Field None 58%N (Some "Junction"%string) [])] 2%N []); (Variant "X3"%string [(Field None 58%N (Some "Junction"%string) []); (Field None 58%N (Some "Junction"%string) []); (Field None 58%N (Some "Junction"%string) [])] 3%N []); (Variant "X4"%string [(Field None 58%N (Some "Junction"%string) []); (Field None 58%N (Some "Junction"%string) []); (Field None 58%N (Some "Junction"%string) []); (Field None 58%N (Some "Junction"%string) [])] 4%N []); (Variant "X5"%string [(Field None 58%N (Some "Junction"%string) []); (Field None 58%N (Some "Junction"%string) []); (Field None 58%N (Some "Junction"%string) []); (Field None 58%N (Some "Junction"%string) []); (Field None 58%N (Some "Junction"%string) [])] 5%N []); (Variant "X6"%string [(Field None 58%N (Some "Junction"%string) []); (Field None 58%N (Some "Junction"%string) []); (Field None 58%N (Some "Junction"%string) []); (Field None 58%N (Some "Junction"%string) []); (Field None 58%N (Some "Junction"%string) []); (Field None 58%N (Some "Junction"%string) [])] 6%N []); (Variant "X7"%string [(Field None 58%N (Some "Junction"%string) []); (Field None 58%N (Some "Junction"%string) []); (Field None 58%N (Some "Junction"%string) []); (Field None 58%N (Some "Junction"%string) []); (Field None 58%N (Some "Junction"%string) []); (Field None 58%N (Some "Junction"%string) []); (Field None 58%N (Some "Junction"%string) [])] 7%N []); (Variant "X8"%string [(Field None 58%N (Some "Junction"%string) []); (Field None 58%N (Some "Junction"%string) []); (Field None 58%N (Some "Junction"%string) []); (Field None 58%N (Some "Junction"%string) []); (Field None 58%N (Some "Junction"%string) []); (Field None 58%N (Some "Junction"%string) []); (Field None 58%N (Some "Junction"%string) []); (Field None 58%N (Some "Junction"%string) [])] 8%N [])]) []).
Definition md_t58 : ty := 
 (Ty ["xcm"%string; "v3"%string; "junction"%string; "Junction"%string] [] (TVariant [(Variant "Parachain"%string [(Field None 59%N (Some "u32"%string) [])] 0%N []); (Variant "AccountId32"%string [(Field (Some "network"%string) 60%N (Some "Option<NetworkId>"%string) []); (Field (Some "id"%string) 1%N (Some "[u8; 32]"%string) [])] 1%N []); (Variant "AccountIndex64"%string [(Field (Some "network"%string) 60%N (Some "Option<NetworkId>"%string) []); (Field (Some "index"%string) 11%N (Some "u64"%string) [])] 2%N []); (Variant "AccountKey20"%string [(Field (Some "network"%string) 60%N (Some "Option<NetworkId>"%string) []); (Field (Some "key"%string) 62%N (Some "[u8; 20]"%string) [])] 3%N []); (Variant "PalletInstance"%string [(Field None 2%N (Some "u8"%string) [])] 4%N []); (Variant "GeneralIndex"%string [(Field None 63%N (Some "u128"%string) [])] 5%N []); (Variant "GeneralKey"%string [(Field (Some "length"%string) 2%N (Some "u8"%string) []); (Field (Some "data"%string) 1%N (Some "[u8; 32]"%string) [])] 6%N []); (Variant "OnlyChild"%string [] 7%N []); (Variant "Plurality"%string [(Field (Some "id"%string) 64%N (Some "BodyId"%string) []); (Field (Some "part"%string) 65%N (Some "BodyPart"%string) [])] 8%N []); (Variant "GlobalConsensus"%string [(Field None 61%N (Some "NetworkId"%string) [])] 9%N [])]) []).
Definition md_t59 : ty := 
 (Ty [] [] (TCompact 4%N) []).
Definition md_t60 : ty := 
 (Ty ["Option"%string] [("T"%string,(Some 61%N))] (TVariant [(Variant "None"%string [] 0%N []); (Variant "Some"%string [(Field None 61%N None [])] 1%N [])]) []).
Definition md_t61 : ty := 
 (Ty ["xcm"%string; "v3"%string; "junction"%string; "NetworkId"%string] [] (TVariant [(Variant "ByGenesis"%string [(Field None 1%N (Some "[u8; 32]"%string) [])] 0%N []); (Variant "ByFork"%string [(Field (Some "block_number"%string) 12%N (Some "u64"%string) []); (Field (Some "block_hash"%string) 1%N (Some "[u8; 32]"%string) [])] 1%N []); (Variant "Polkadot"%string [] 2%N []); (Variant "Kusama"%string [] 3%N []); (Variant "Westend"%string [] 4%N []); (Variant "Rococo"%string [] 5%N []); (Variant "Wococo"%string [] 6%N []); (Variant "Ethereum"%string [(Field (Some "chain_id"%string) 11%N (Some "u64"%string) [])] 7%N []); (Variant "BitcoinCore"%string [] 8%N []); (Variant "BitcoinCash"%string [] 9%N []); (Variant "PolkadotBulletin"%string [] 10%N [])]) []).
Definition md_t62 : ty := 
 (Ty [] [] (TArray 20%N 2%N) []).
Definition md_t63 : ty := 
 (Ty [] [] (TCompact 6%N) []).
Definition md_t64 : ty := 
 (Ty ["xcm"%string; "v3"%string; "junction"%string; "BodyId"%string] [] (TVariant [(Variant "Unit"%string [] 0%N []); (Variant "Moniker"%string [(Field None 18%N (Some "[u8; 4]"%string) [])] 1%N []); (Variant "Index"%string [(Field None 59%N (Some "u32"%string) [])] 2%N []); (Variant "Executive"%string [] 3%N []); (Variant "Technical"%string [] 4%N []); (Variant "Legislative"%string [] 5%N []); (Variant "Judicial"%string [] 6%N []); (Variant "Defense"%string [] 7%N []); (Variant "Administration"%string [] 8%N []); (Variant "Treasury"%string [] 9%N [])]) []).
Definition md_t65 : ty := 
 (Ty ["xcm"%string; "v3"%string; "junction"%string; "BodyPart"%string] [] (TVariant [(Variant "Voice"%string [] 0%N []); (Variant "Members"%string [(Field (Some "count"%string) 59%N (Some "u32"%string) [])] 1%N []); (Variant "Fraction"%string [(Field (Some "nom"%string) 59%N (Some "u32"%string) []); (Field (Some "denom"%string) 59%N (Some "u32"%string) [])] 2%N []); (Variant "AtLeastProportion"%string [(Field (Some "nom"%string) 59%N (Some "u32"%string) []); (Field (Some "denom"%string) 59%N (Some "u32"%string) [])] 3%N []); (Variant "MoreThanProportion"%string [(Field (Some "nom"%string) 59%N (Some "u32"%string) []); (Field (Some "denom"%string) 59%N (Some "u32"%string) [])] 4%N [])]) []).
Definition md_t66 : ty := 
 (Ty ["xcm"%string; "v3"%string; "multiasset"%string; "AssetId"%string] [] (TVariant [(Variant "Concrete"%string [(Field None 56%N (Some "MultiLocation"%string) [])] 0%N []); (Variant "Abstract"%string [(Field None 1%N (Some "[u8; 32]"%string) [])] 1%N [])]) []).
Definition md_t67 : ty := 
 (Ty ["staging_xcm"%string; "v4"%string; "location"%string; "Location"%string] [] (TComposite [(Field (Some "parents"%string) 2%N (Some "u8"%string) []); (Field (Some "interior"%string) 68%N (Some "Junctions"%string) [])]) []).
Definition md_t68 : ty := 
 (Ty ["staging_xcm"%string; "v4"%string; "junctions"%string; "Junctions"%string] [] (TVariant [(Variant "Here"%string [] 0%N []); (Variant "X1"%string [(Field None 69%N (Some "Arc<[Junction; 1]>"%string) [])] 1%N []); (Variant "X2"%string [(Field None 73%N (Some "Arc<[Junction; 2]>"%string) [])] 2%N []); (Variant "X3"%string [(Field None 74%N (Some "Arc<[Junction; 3]>"%string) [])] 3%N []); (Variant "X4"%string [(Field None 75%N (Some "Arc<[Junction; 4]>"%string) [])] 4%N []); (Variant "X5"%string [(Field None 76%N (Some "Arc<[Junction; 5]>"%string) [])] 5%N []); (Variant "X6"%string [(Field None 77%N (Some "Arc<[Junction; 6]>"%string) [])] 6%N []); (Variant "X7"%string [(Field None 78%N (Some "Arc<[Junction; 7]>"%string) [])] 7%N []); (Variant "X8"%string [(Field None 79%N (Some "Arc<[Junction; 8]>"%string) [])] 8%N [])]) []).
Definition md_t69 : ty := 
 (Ty [] [] (TArray 1%N 70%N) []).
Definition md_t70 : ty := 
 (Ty ["staging_xcm"%string; "v4"%string; "junction"%string; "Junction"%string] [] (TVariant [(Variant "Parachain"%string [(Field None 59%N (Some "u32"%string) [])] 0%N []); (Variant "AccountId32"%string [(Field (Some "network"%string) 71%N (Some "Option<NetworkId>"%string) []); (Field (Some "id"%string) 1%N (Some "[u8; 32]"%string) [])] 1%N []); (Variant "AccountIndex64"%string [(Field (Some "network"%string) 71%N (Some "Option<NetworkId>"%string) []); (Field (Some "index"%string) 11%N (Some "u64"%string) [])] 2%N []); (Variant "AccountKey20"%string [(Field (Some "network"%string) 71%N (Some "Option<NetworkId>"%string) []); (Field (Some "key"%string) 62%N (Some "[u8; 20]"%string) [])] 3%N []); (Variant "PalletInstance"%string [(Field None 2%N (Some "u8"%string) [])] 4%N []); (Variant "GeneralIndex"%string [(Field None 63%N (Some "u128"%string) [])] 5%N []); (Variant "GeneralKey"%string [(Field (Some "length"%string) 2%N (Some "u8"%string) []); (Field (Some "data"%string) 1%N (Some "[u8; 32]"%string) [])] 6%N []); (Variant "OnlyChild"%string [] 7%N []); (Variant "Plurality"%string [(Field (Some "id"%string) 64%N (Some "BodyId"%string) []); (Field (Some "part"%string) 65%N (Some "BodyPart"%string) [])] 8%N []); (Variant "GlobalConsensus"%string [(Field None 72%N (Some "NetworkId"%string) [])] 9%N [])]) []).
Definition md_t71 : ty := 
 (Ty ["Option"%string] [("T"%string,(Some 72%N))] (TVariant [(Variant "None"%string [] 0%N []); (Variant "Some"%string [(Field None 72%N None [])] 1%N [])]) []).
Definition md_t72 : ty := 
 (Ty ["staging_xcm"%string; "v4"%string; "junction"%string; "NetworkId"%string] [] (TVariant [(Variant "ByGenesis"%string [(Field None 1%N (Some "[u8; 32]"%string) [])] 0%N []); (Variant "ByFork"%string [(Field (Some "block_number"%string) 12%N (Some "u64"%string) []); (Field (Some "block_hash"%string) 1%N (Some "[u8; 32]"%string) [])] 1%N []); (Variant "Polkadot"%string [] 2%N []); (Variant "Kusama"%string [] 3%N []); (Variant "Westend"%string [] 4%N []); (Variant "Rococo"%string [] 5%N []); (Variant "Wococo"%string [] 6%N []); (Variant "Ethereum"%string [(Field (Some "chain_id"%string) 11%N (Some "u64"%string) [])] 7%N []); (Variant "BitcoinCore"%string [] 8%N []); (Variant "BitcoinCash"%string [] 9%N []); (Variant "PolkadotBulletin"%string [] 10%N [])]) []).
Definition md_t73 : ty := 
 (Ty [] [] (TArray 2%N 70%N) []).
Definition md_t74 : ty := 
 (Ty [] [] (TArray 3%N 70%N) []).
Definition md_t75 : ty := 
 (Ty [] [] (TArray 4%N 70%N) []).
Definition md_t76 : ty := 
 (Ty [] [] (TArray 5%N 70%N) []).
Definition md_t77 : ty := 
 (Ty [] [] (TArray 6%N 70%N) []).
Definition md_t78 : ty := 
 (Ty [] [] (TArray 7%N 70%N) []).
Definition md_t79 : ty := 
 (Ty [] [] (TArray 8%N 70%N) []).
Definition md_t80 : ty := 
 (Ty ["staging_xcm"%string; "v4"%string; "asset"%string; "AssetId"%string] [] (TComposite [(Field None 67%N (Some "Location"%string) [])]) []).
Definition md_t81 : ty := 
 (Ty ["xcm"%string; "VersionedLocation"%string] [] (TVariant [(Variant "V2"%string [(Field None 82%N (Some "v2::MultiLocation"%string) [])] 1%N []); (Variant "V3"%string [(Field None 56%N (Some "v3::MultiLocation"%string) [])] 3%N []); (Variant "V4"%string [(Field None 67%N (Some "v4::Location"%string) [])] 4%N [])]) []).
Definition md_t82 : ty := 
 (Ty ["xcm"%string; "v2"%string; "multilocation"%string; "MultiLocation"%string] [] (TComposite [(Field (Some "parents"%string) 2%N (Some "u8"%string) []); (Field (Some "interior"%string) 83%N (Some "Junctions"%string) [])]) []).
Definition md_t83 : ty := 
 (Ty ["xcm"%string; "v2"%string; "multilocation"%string; "Junctions"%string] [] (TVariant [(Variant "Here"%string [] 0%N []); (Variant "X1"%string [(Field None 84%N (Some "Junction"%string) [])] 1%N []); (Variant "X2"%string [(Field None 84%N (Some "Junction"%string) []); (Field None 84%N (Some "Junction"%string) [])] 2%N []); (Variant "X3"%string [(Field None 84%N (Some "Junction"%string) []); (Field None 84%N (Some "Junction"%string) []); (Field None 84%N (Some "Junction"%string) [])] 3%N []); (Variant "X4"%string [(Field None 84%N (Some "Junction"%string) []); (Field None 84%N (Some "Junction"%string) []); (Field None 84%N (Some "Junction"%string) []); (Field None 84%N (Some "Junction"%string) [])] 4%N []); (Variant "X5"%string [(Field None 84%N (Some "Junction"%string) []); (Field None 84%N (Some "Junction"%string) []); (Field None 84%N (Some "Junction"%string) []); (Field None 84%N (Some "Junction"%string) []); (Field None 84%N (Some "Junction"%string) [])] 5%N []); (Variant "X6"%string [(Field None 84%N (Some "Junction"%string) []); (Field None 84%N (Some "Junction"%string) []); (Field None 84%N (Some "Junction"%string) []); (Field None 84%N (Some "Junction"%string) []); (Field None 84%N (Some "Junction"%string) []); (Field None 84%N (Some "Junction"%string) [])] 6%N []); (Variant "X7"%string [(Field None 84%N (Some "Junction"%string) []); (Field None 84%N (Some "Junction"%string) []); (Field None 84%N (Some "Junction"%string) []); (Field None 84%N (Some "Junction"%string) []); (Field None 84%N (Some "Junction"%string) []); (Field None 84%N (Some "Junction"%string) []); (Field None 84%N (Some "Junction"%string) [])] 7%N []); (Variant "X8"%string [(Field None 84%N (Some "Junction"%string) []); (Field None 84%N (Some "Junction"%string) []); (Field None 84%N (Some "Junction"%string) []); (Field None 84%N (Some "Junction"%string) []); (Field None 84%N (Some "Junction"%string) []); (Field None 84%N (Some "Junction"%string) []); (Field None 84%N (Some "Junction"%string) []); (Field None 84%N (Some "Junction"%string) [])] 8%N [])]) []).
Definition md_t84 : ty := 
 (Ty ["xcm"%string; "v2"%string; "junction"%string; "Junction"%string] [] (TVariant [(Variant "Parachain"%string [(Field None 59%N (Some "u32"%string) [])] 0%N []); (Variant "AccountId32"%string [(Field (Some "network"%string) 85%N (Some "NetworkId"%string) []); (Field (Some "id"%string) 1%N (Some "[u8; 32]"%string) [])] 1%N []); (Variant "AccountIndex64"%string [(Field (Some "network"%string) 85%N (Some "NetworkId"%string) []); (Field (Some "index"%string) 11%N (Some "u64"%string) [])] 2%N []); (Variant "AccountKey20"%string [(Field (Some "network"%string) 85%N (Some "NetworkId"%string) []); (Field (Some "key"%string) 62%N (Some "[u8; 20]"%string) [])] 3%N []); (Variant "PalletInstance"%string [(Field None 2%N (Some "u8"%string) [])] 4%N []); (Variant "GeneralIndex"%string [(Field None 63%N (Some "u128"%string) [])] 5%N []); (Variant "GeneralKey"%string [(Field None 86%N (Some "WeakBoundedVec<u8, ConstU32<32>>"%string) [])] 6%N []); (Variant "OnlyChild"%string [] 7%N []); (Variant "Plurality"%string [(Field (Some "id"%string) 87%N (Some "BodyId"%string) []); (Field (Some "part"%string) 88%N (Some "BodyPart"%string) [])] 8%N [])]) []).
Definition md_t85 : ty := 
 (Ty ["xcm"%string; "v2"%string; "NetworkId"%string] [] (TVariant [(Variant "Any"%string [] 0%N []); (Variant "Named"%string [(Field None 86%N (Some "WeakBoundedVec<u8, ConstU32<32>>"%string) [])] 1%N []); (Variant "Polkadot"%string [] 2%N []); (Variant "Kusama"%string [] 3%N [])]) []).
Definition md_t86 : ty := 
 (Ty ["bounded_collections"%string; "weak_bounded_vec"%string; "WeakBoundedVec"%string] [("T"%string,(Some 2%N)); ("S"%string,None)] (TComposite [(Field None 14%N (Some "Vec<T>"%string) [])]) []).
Definition md_t87 : ty := 
 (Ty ["xcm"%string; "v2"%string; "BodyId"%string] [] (TVariant [(Variant "Unit"%string [] 0%N []); (Variant "Named"%string [(Field None 86%N (Some "WeakBoundedVec<u8, ConstU32<32>>"%string) [])] 1%N []); (Variant "Index"%string [(Field None 59%N (Some "u32"%string) [])] 2%N []); (Variant "Executive"%string [] 3%N []); (Variant "Technical"%string [] 4%N []); (Variant "Legislative"%string [] 5%N []); (Variant "Judicial"%string [] 6%N []); (Variant "Defense"%string [] 7%N []); (Variant "Administration"%string [] 8%N []); (Variant "Treasury"%string [] 9%N [])]) []).
Definition md_t88 : ty := 
 (Ty ["xcm"%string; "v2"%string; "BodyPart"%string] [] (TVariant [(Variant "Voice"%string [] 0%N []); (Variant "Members"%string [(Field (Some "count"%string) 59%N (Some "u32"%string) [])] 1%N []); (Variant "Fraction"%string [(Field (Some "nom"%string) 59%N (Some "u32"%string) []); (Field (Some "denom"%string) 59%N (Some "u32"%string) [])] 2%N []); (Variant "AtLeastProportion"%string [(Field (Some "nom"%string) 59%N (Some "u32"%string) []); (Field (Some "denom"%string) 59%N (Some "u32"%string) [])] 3%N []); (Variant "MoreThanProportion"%string [(Field (Some "nom"%string) 59%N (Some "u32"%string) []); (Field (Some "denom"%string) 59%N (Some "u32"%string) [])] 4%N [])]) []).
Definition md_t89 : ty := 
 (Ty ["pallet_conviction_voting"%string; "pallet"%string; "Event"%string] [("T"%string,None); ("I"%string,None)] (TVariant [(Variant "Delegated"%string [(Field None 0%N (Some "T::AccountId"%string) []); (Field None 0%N (Some "T::AccountId"%string) [])] 0%N []); (Variant "Undelegated"%string [(Field None 0%N (Some "T::AccountId"%string) [])] 1%N [])]) []).
Definition md_t90 : ty := 
 (Ty ["pallet_referenda"%string; "pallet"%string; "Event"%string] [("T"%string,None); ("I"%string,None)] (TVariant [(Variant "Submitted"%string [(Field (Some "index"%string) 4%N (Some "ReferendumIndex"%string) []); (Field (Some "track"%string) 91%N (Some "TrackIdOf<T, I>"%string) []); (Field (Some "proposal"%string) 92%N (Some "BoundedCallOf<T, I>"%string) [])] 0%N []); (Variant "DecisionDepositPlaced"%string [(Field (Some "index"%string) 4%N (Some "ReferendumIndex"%string) []); (Field (Some "who"%string) 0%N (Some "T::AccountId"%string) []); (Field (Some "amount"%string) 6%N (Some "BalanceOf<T, I>"%string) [])] 1%N []); (Variant "DecisionDepositRefunded"%string [(Field (Some "index"%string) 4%N (Some "ReferendumIndex"%string) []); (Field (Some "who"%string) 0%N (Some "T::AccountId"%string) []); (Field (Some "amount"%string) 6%N (Some "BalanceOf<T, I>"%string) [])] 2%N []); (Variant "DepositSlashed"%string [(Field (Some "who"%string) 0%N (Some "T::AccountId"%string) []); (Field (Some "amount"%string) 6%N (Some "BalanceOf<T, I>"%string) [])] 3%N []); (Variant "DecisionStarted"%string [(Field (Some "index"%string) 4%N (Some "ReferendumIndex"%string) []); (Field (Some "track"%string) 91%N (Some "TrackIdOf<T, I>"%string) []); (Field (Some "proposal"%string) 92%N (Some "BoundedCallOf<T, I>"%string) []); (Field (Some "tally"%string) 448%N (Some "T::Tally"%string) [])] 4%N []); (Variant "ConfirmStarted"%string [(Field (Some "index"%string) 4%N (Some "ReferendumIndex"%string) [])] 5%N []); (Variant "ConfirmAborted"%string [(Field (Some "index"%string) 4%N (Some "ReferendumIndex"%string) [])] 6%N []); (Variant "Confirmed"%string [(Field (Some "index"%string) 4%N (Some "ReferendumIndex"%string) []); (Field (Some "tally"%string) 448%N (Some "T::Tally"%string) [])] 7%N []); (Variant "Approved"%string [(Field (Some "index"%string) 4%N (Some "ReferendumIndex"%string) [])] 8%N []); (Variant "Rejected"%string [(Field (Some "index"%string) 4%N (Some "ReferendumIndex"%string) []); (Field (Some "tally"%string) 448%N (Some "T::Tally"%string) [])] 9%N []); (Variant "TimedOut"%string [(Field (Some "index"%string) 4%N (Some "ReferendumIndex"%string) []); (Field (Some "tally"%string) 448%N (Some "T::Tally"%string) [])] 10%N []); (Variant "Cancelled"%string [(Field (Some "index"%string) 4%N (Some "ReferendumIndex"%string) []); (Field (Some "tally"%string) 448%N (Some "T::Tally"%string) [])] 11%N []); (Variant "Killed"%string [(Field (Some "index"%string) 4%N (Some "ReferendumIndex"%string) []); (Field (Some "tally"%string) 448%N (Some "T::Tally"%string) [])] 12%N []); (Variant "SubmissionDepositRefunded"%string [(Field (Some "index"%string) 4%N (Some "ReferendumIndex"%string) []); (Field (Some "who"%string) 0%N (Some "T::AccountId"%string) []); (Field (Some "amount"%string) 6%N (Some "BalanceOf<T, I>"%string) [])] 13%N []); (Variant "MetadataSet"%string [(Field (Some "index"%string) 4%N (Some "ReferendumIndex"%string) []); (Field (Some "hash"%string) 13%N (Some "T::Hash"%string) [])] 14%N []); (Variant "MetadataCleared"%string [(Field (Some "index"%string) 4%N (Some "ReferendumIndex"%string) []); (Field (Some "hash"%string) 13%N (Some "T::Hash"%string) [])] 15%N [])]) []).
Definition md_t91 : ty := 
 (Ty [] [] (TPrimitive (PrU U16)) []).
Definition md_t92 : ty := 
 (Ty ["frame_support"%string; "traits"%string; "preimages"%string; "Bounded"%string] [("T"%string,(Some 93%N)); ("H"%string,(Some 446%N))] (TVariant [(Variant "Legacy"%string [(Field (Some "hash"%string) 13%N (Some "H::Output"%string) [])] 0%N []); (Variant "Inline"%string [(Field None 447%N (Some "BoundedInline"%string) [])] 1%N []); (Variant "Lookup"%string [(Field (Some "hash"%string) 13%N (Some "H::Output"%string) []); (Field (Some "len"%string) 4%N (Some "u32"%string) [])] 2%N [])]) []).
Definition md_t93 : ty := 
 (Ty ["polkadot_runtime"%string; "RuntimeCall"%string] [] (TVariant [(Variant "System"%string [(Field None 94%N (Some "self::sp_api_hidden_includes_construct_runtime::hidden_include::dispatch
::CallableCallFor<System, Runtime>"%string) [])] 0%N []); (Variant "Scheduler"%string [(Field None 98%N (Some "self::sp_api_hidden_includes_construct_runtime::hidden_include::dispatch
::CallableCallFor<Scheduler, Runtime>"%string) [])] 1%N []); (Variant "Preimage"%string [(Field None 100%N (Some "self::sp_api_hidden_includes_construct_runtime::hidden_include::dispatch
::CallableCallFor<Preimage, Runtime>"%string) [])] 10%N []); (Variant "Babe"%string [(Field None 102%N (Some "self::sp_api_hidden_includes_construct_runtime::hidden_include::dispatch
::CallableCallFor<Babe, Runtime>"%string) [])] 2%N []); (Variant "Timestamp"%string [(Field None 111%N (Some "self::sp_api_hidden_includes_construct_runtime::hidden_include::dispatch
::CallableCallFor<Timestamp, Runtime>"%string) [])] 3%N []); (Variant "Indices"%string [(Field None 112%N (Some "self::sp_api_hidden_includes_construct_runtime::hidden_include::dispatch
::CallableCallFor<Indices, Runtime>"%string) [])] 4%N []); (Variant "Balances"%string [(Field None 115%N (Some "self::sp_api_hidden_includes_construct_runtime::hidden_include::dispatch
::CallableCallFor<Balances, Runtime>"%string) [])] 5%N []); (Variant "Staking"%string [(Field None 118%N (Some "self::sp_api_hidden_includes_construct_runtime::hidden_include::dispatch
::CallableCallFor<Staking, Runtime>"%string) [])] 7%N []); (Variant "Session"%string [(Field None 133%N (Some "self::sp_api_hidden_includes_construct_runtime::hidden_include::dispatch
::CallableCallFor<Session, Runtime>"%string) [])] 9%N []); (Variant "Grandpa"%string [(Field None 140%N (Some "self::sp_api_hidden_includes_construct_runtime::hidden_include::dispatch
::CallableCallFor<Grandpa, Runtime>"%string) [])] 11%N []); (Variant "Treasury"%string [(Field None 151%N (Some "self::sp_api_hidden_includes_construct_runtime::hidden_include::dispatch
::CallableCallFor<Treasury, Runtime>"%string) [])] 19%N []); (Variant "ConvictionVoting"%string [(Field None 153%N (Some "self::sp_api_hidden_includes_construct_runtime::hidden_include::dispatch
::CallableCallFor<ConvictionVoting, Runtime>"%string) [])] 20%N []); (Variant "Referenda"%string [(Field None 158%N (Some "self::sp_api_hidden_includes_construct_runtime::hidden_include::dispatch
::CallableCallFor<Referenda, Runtime>"%string) [])] 21%N []); (Variant "Whitelist"%string [(Field None 168%N (Some "self::sp_api_hidden_includes_construct_runtime::hidden_include::dispatch
::CallableCallFor<Whitelist, Runtime>"%string) [])] 23%N []); (Variant "Parameters"%string [(Field None 169%N (Some "self::sp_api_hidden_includes_construct_runtime::hidden_include::dispatch
::CallableCallFor<Parameters, Runtime>"%string) [])] 27%N []); (Variant "Claims"%string [(Field None 180%N (Some "self::sp_api_hidden_includes_construct_runtime::hidden_include::dispatch
::CallableCallFor<Claims, Runtime>"%string) [])] 24%N []); (Variant "Vesting"%string [(Field None 188%N (Some "self::sp_api_hidden_includes_construct_runtime::hidden_include::dispatch
::CallableCallFor<Vesting, Runtime>"%string) [])] 25%N []); (Variant "Utility"%string [(Field None 190%N (Some "self::sp_api_hidden_includes_construct_runtime::hidden_include::dispatch
::CallableCallFor<Utility, Runtime>"%string) [])] 26%N []); (Variant "Proxy"%string [(Field None 192%N (Some "self::sp_api_hidden_includes_construct_runtime::hidden_include::dispatch
::CallableCallFor<Proxy, Runtime>"%string) [])] 29%N []); (Variant "Multisig"%string [(Field None 195%N (Some "self::sp_api_hidden_includes_construct_runtime::hidden_include::dispatch
::CallableCallFor<Multisig, Runtime>"%string) [])] 30%N []); (Variant "Bounties"%string [(Field None 198%N (Some "self::sp_api_hidden_includes_construct_runtime::hidden_include::dispatch
::CallableCallFor<Bounties, Runtime>"%string) [])] 34%N []); (Variant "ChildBounties"%string [(Field None 199%N (Some "self::sp_api_hidden_includes_construct_runtime::hidden_include::dispatch
::CallableCallFor<ChildBounties, Runtime>"%string) [])] 38%N []); (Variant "ElectionProviderMultiPhase"%string [(Field None 200%N (Some "self::sp_api_hidden_includes_construct_runtime::hidden_include::dispatch
::CallableCallFor<ElectionProviderMultiPhase, Runtime>"%string) [])] 36%N []); (Variant "VoterList"%string [(Field None 261%N (Some "self::sp_api_hidden_includes_construct_runtime::hidden_include::dispatch
::CallableCallFor<VoterList, Runtime>"%string) [])] 37%N []); (Variant "NominationPools"%string [(Field None 262%N (Some "self::sp_api_hidden_includes_construct_runtime::hidden_include::dispatch
::CallableCallFor<NominationPools, Runtime>"%string) [])] 39%N []); (Variant "FastUnstake"%string [(Field None 275%N (Some "self::sp_api_hidden_includes_construct_runtime::hidden_include::dispatch
::CallableCallFor<FastUnstake, Runtime>"%string) [])] 40%N []); (Variant "Configuration"%string [(Field None 276%N (Some "self::sp_api_hidden_includes_construct_runtime::hidden_include::dispatch
::CallableCallFor<Configuration, Runtime>"%string) [])] 51%N []); (Variant "ParasShared"%string [(Field None 285%N (Some "self::sp_api_hidden_includes_construct_runtime::hidden_include::dispatch
::CallableCallFor<ParasShared, Runtime>"%string) [])] 52%N []); (Variant "ParaInclusion"%string [(Field None 286%N (Some "self::sp_api_hidden_includes_construct_runtime::hidden_include::dispatch
::CallableCallFor<ParaInclusion, Runtime>"%string) [])] 53%N []); (Variant "ParaInherent"%string [(Field None 287%N (Some "self::sp_api_hidden_includes_construct_runtime::hidden_include::dispatch
::CallableCallFor<ParaInherent, Runtime>"%string) [])] 54%N []); (Variant "Paras"%string [(Field None 322%N (Some "self::sp_api_hidden_includes_construct_runtime::hidden_include::dispatch
::CallableCallFor<Paras, Runtime>"%string) [])] 56%N []); (Variant "Initializer"%string [(Field None 324%N (Some "self::sp_api_hidden_includes_construct_runtime::hidden_include::dispatch
::CallableCallFor<Initializer, Runtime>"%string) [])] 57%N []); (Variant "Hrmp"%string [(Field None 325%N (Some "self::sp_api_hidden_includes_construct_runtime::hidden_include::dispatch
::CallableCallFor<Hrmp, Runtime>"%string) [])] 60%N []); (Variant "ParasDisputes"%string [(Field None 327%N (Some "self::sp_api_hidden_includes_construct_runtime::hidden_include::dispatch
::CallableCallFor<ParasDisputes, Runtime>"%string) [])] 62%N []); (Variant "ParasSlashing"%string [(Field None 328%N (Some "self::sp_api_hidden_includes_construct_runtime::hidden_include::dispatch
::CallableCallFor<ParasSlashing, Runtime>"%string) [])] 63%N []); (Variant "OnDemand"%string [(Field None 332%N (Some "self::sp_api_hidden_includes_construct_runtime::hidden_include::dispatch
::CallableCallFor<OnDemand, Runtime>"%string) [])] 64%N []); (Variant "Registrar"%string [(Field None 333%N (Some "self::sp_api_hidden_includes_construct_runtime::hidden_include::dispatch
::CallableCallFor<Registrar, Runtime>"%string) [])] 70%N []); (Variant "Slots"%string [(Field None 334%N (Some "self::sp_api_hidden_includes_construct_runtime::hidden_include::dispatch
::CallableCallFor<Slots, Runtime>"%string) [])] 71%N []); (Variant "Auctions"%string [(Field None 335%N (Some "self::sp_api_hidden_includes_construct_runtime::hidden_include::dispatch
::CallableCallFor<Auctions, Runtime>"%string) [])] 72%N []); (Variant "Crowdloan"%string [(Field None 337%N (Some "self::sp_api_hidden_includes_construct_runtime::hidden_include::dispatch
::CallableCallFor<Crowdloan, Runtime>"%string) [])] 73%N []); (Variant "Coretime"%string [(Field None 342%N (Some "self::sp_api_hidden_includes_construct_runtime::hidden_include::dispatch
::CallableCallFor<Coretime, Runtime>"%string) [])] 74%N []); (Variant "StateTrieMigration"%string [(Field None 347%N (Some "self::sp_api_hidden_includes_construct_runtime::hidden_include::dispatch
::CallableCallFor<StateTrieMigration, Runtime>"%string) [])] 98%N []); (Variant "XcmPallet"%string [(Field None 353%N (Some "self::sp_api_hidden_includes_construct_runtime::hidden_include::dispatch
::CallableCallFor<XcmPallet, Runtime>"%string) [])] 99%N []); (Variant "MessageQueue"%string [(Field None 432%N (Some "self::sp_api_hidden_includes_construct_runtime::hidden_include::dispatch
::CallableCallFor<MessageQueue, Runtime>"%string) [])] 100%N []); (Variant "AssetRate"%string [(Field None 435%N (Some "self::sp_api_hidden_includes_construct_runtime::hidden_include::dispatch
::CallableCallFor<AssetRate, Runtime>"%string) [])] 101%N []); (Variant "Beefy"%string [(Field None 437%N (Some "self::sp_api_hidden_includes_construct_runtime::hidden_include::dispatch
::CallableCallFor<Beefy, Runtime>"%string) [])] 200%N [])]) []).
Definition md_t94 : ty := 
 (Ty ["frame_system"%string; "pallet"%string; "Call"%string] [("T"%string,None)] (TVariant [(Variant "remark"%string [(Field (Some "remark"%string) 14%N (Some "Vec<u8>"%string) [])] 0%N []); (Variant "set_heap_pages"%string [(Field (Some "pages"%string) 12%N (Some "u64"%string) [])] 1%N []); (Variant "set_code"%string [(Field (Some "code"%string) 14%N (Some "Vec<u8>"%string) [])] 2%N []); (Variant "set_code_without_checks"%string [(Field (Some "code"%string) 14%N (Some "Vec<u8>"%string) [])] 3%N []); (Variant "set_storage"%string [(Field (Some "items"%string) 95%N (Some "Vec<KeyValue>"%string) [])] 4%N []); (Variant "kill_storage"%string [(Field (Some "keys"%string) 97%N (Some "Vec<Key>"%string) [])] 5%N []); (Variant "kill_prefix"%string [(Field (Some "prefix"%string) 14%N (Some "Key"%string) []); (Field (Some "subkeys"%string) 4%N (Some "u32"%string) [])] 6%N []); (Variant "remark_with_event"%string [(Field (Some "remark"%string) 14%N (Some "Vec<u8>"%string) [])] 7%N []); (Variant "authorize_upgrade"%string [(Field (Some "code_hash"%string) 13%N (Some "T::Hash"%string) [])] 9%N []); (Variant "authorize_upgrade_without_checks"%string [(Field (Some "code_hash"%string) 13%N (Some "T::Hash"%string) [])] 10%N []); (Variant "apply_authorized_upgrade"%string [(Field (Some "code"%string) 14%N (Some "Vec<u8>"%string) [])] 11%N [])]) []).
Definition md_t95 : ty := 
 (Ty [] [] (TSequence 96%N) []).
Definition md_t96 : ty := 
 (Ty [] [] (TTuple [14%N; 14%N]) []).
Definition md_t97 : ty := 
 (Ty [] [] (TSequence 14%N) []).
Definition md_t98 : ty := 
 (Ty ["pallet_scheduler"%string; "pallet"%string; "Call"%string] [("T"%string,None)] (TVariant [(Variant "schedule"%string [(Field (Some "when"%string) 4%N (Some "BlockNumberFor<T>"%string) []); (Field (Some "maybe_periodic"%string) 99%N (Some "Option<schedule::Period<BlockNumberFor<T>>>"%string) []); (Field (Some "priority"%string) 2%N (Some "schedule::Priority"%string) []); (Field (Some "call"%string) 93%N (Some "Box<<T as Config>::RuntimeCall>"%string) [])] 0%N []); (Variant "cancel"%string [(Field (Some "when"%string) 4%N (Some "BlockNumberFor<T>"%string) []); (Field (Some "index"%string) 4%N (Some "u32"%string) [])] 1%N []); (Variant "schedule_named"%string [(Field (Some "id"%string) 1%N (Some "TaskName"%string) []); (Field (Some "when"%string) 4%N (Some "BlockNumberFor<T>"%string) []); (Field (Some "maybe_periodic"%string) 99%N (Some "Option<schedule::Period<BlockNumberFor<T>>>"%string) []); (Field (Some "priority"%string) 2%N (Some "schedule::Priority"%string) []); (Field (Some "call"%string) 93%N (Some "Box<<T as Config>::RuntimeCall>"%string) [])] 2%N []); (Variant "cancel_named"%string [(Field (Some "id"%string) 1%N (Some "TaskName"%string) [])] 3%N []); (Variant "schedule_after"%string [(Field (Some "after"%string) 4%N (Some "BlockNumberFor<T>"%string) []); (Field (Some "maybe_periodic"%string) 99%N (Some "Option<schedule::Period<BlockNumberFor<T>>>"%string) []); (Field (Some "priority"%string) 2%N (Some "schedule::Priority"%string) []); (Field (Some "call"%string) 93%N (Some "Box<<T as Config>::RuntimeCall>"%string) [])] 4%N []); (Variant "schedule_named_after"%string [(Field (Some "id"%string) 1%N (Some "TaskName"%string) []); (Field (Some "after"%string) 4%N (Some "BlockNumberFor<T>"%string) []); (Field (Some "maybe_periodic"%string) 99%N (Some "Option<schedule::Period<BlockNumberFor<T>>>"%string) []); (Field (Some "priority"%string) 2%N (Some "schedule::Priority"%string) []); (Field (Some "call"%string) 93%N (Some "Box<<T as Config>::RuntimeCall>"%string) [])] 5%N []); (Variant "set_retry"%string [(Field (Some "task"%string) 32%N (Some "TaskAddress<BlockNumberFor<T>>"%string) []); (Field (Some "retries"%string) 2%N (Some "u8"%string) []); (Field (Some "period"%string) 4%N (Some "BlockNumberFor<T>"%string) [])] 6%N []); (Variant "set_retry_named"%string [(Field (Some "id"%string) 1%N (Some "TaskName"%string) []); (Field (Some "retries"%string) 2%N (Some "u8"%string) []); (Field (Some "period"%string) 4%N (Some "BlockNumberFor<T>"%string) [])] 7%N []); (Variant "cancel_retry"%string [(Field (Some "task"%string) 32%N (Some "TaskAddress<BlockNumberFor<T>>"%string) [])] 8%N []); (Variant "cancel_retry_named"%string [(Field (Some "id"%string) 1%N (Some "TaskName"%string) [])] 9%N [])]) []).
Definition md_t99 : ty := 
 (Ty ["Option"%string] [("T"%string,(Some 32%N))] (TVariant [(Variant "None"%string [] 0%N []); (Variant "Some"%string [(Field None 32%N None [])] 1%N [])]) []).
Definition md_t100 : ty := 
 (Ty ["pallet_preimage"%string; "pallet"%string; "Call"%string] [("T"%string,None)] (TVariant [(Variant "note_preimage"%string [(Field (Some "bytes"%string) 14%N (Some "Vec<u8>"%string) [])] 0%N []); (Variant "unnote_preimage"%string [(Field (Some "hash"%string) 13%N (Some "T::Hash"%string) [])] 1%N []); (Variant "request_preimage"%string [(Field (Some "hash"%string) 13%N (Some "T::Hash"%string) [])] 2%N []); (Variant "unrequest_preimage"%string [(Field (Some "hash"%string) 13%N (Some "T::Hash"%string) [])] 3%N []); (Variant "ensure_updated"%string [(Field (Some "hashes"%string) 101%N (Some "Vec<T::Hash>"%string) [])] 4%N [])]) []).
Definition md_t101 : ty := 
 (Ty [] [] (TSequence 13%N) []).
Definition md_t102 : ty := 
 (Ty ["pallet_babe"%string; "pallet"%string; "Call"%string] [("T"%string,None)] (TVariant [(Variant "report_equivocation"%string [(Field (Some "equivocation_proof"%string) 103%N (Some "Box<EquivocationProof<HeaderFor<T>>>"%string) []); (Field (Some "key_owner_proof"%string) 107%N (Some "T::KeyOwnerProof"%string) [])] 0%N []); (Variant "report_equivocation_unsigned"%string [(Field (Some "equivocation_proof"%string) 103%N (Some "Box<EquivocationProof<HeaderFor<T>>>"%string) []); (Field (Some "key_owner_proof"%string) 107%N (Some "T::KeyOwnerProof"%string) [])] 1%N []); (Variant "plan_config_change"%string [(Field (Some "config"%string) 108%N (Some "NextConfigDescriptor"%string) [])] 2%N [])]) []).
Definition md_t103 : ty := 
 (Ty ["sp_consensus_slots"%string; "EquivocationProof"%string] [("Header"%string,(Some 104%N)); ("Id"%string,(Some 105%N))] (TComposite [(Field (Some "offender"%string) 105%N (Some "Id"%string) []); (Field (Some "slot"%string) 106%N (Some "Slot"%string) []); (Field (Some "first_header"%string) 104%N (Some "Header"%string) []); (Field (Some "second_header"%string) 104%N (Some "Header"%string) [])]) []).
Definition md_t104 : ty := 
 (Ty ["sp_runtime"%string; "generic"%string; "header"%string; "Header"%string] [("Number"%string,(Some 4%N)); ("Hash"%string,None)] (TComposite [(Field (Some "parent_hash"%string) 13%N (Some "Hash::Output"%string) []); (Field (Some "number"%string) 59%N (Some "Number"%string) []); (Field (Some "state_root"%string) 13%N (Some "Hash::Output"%string) []); (Field (Some "extrinsics_root"%string) 13%N (Some "Hash::Output"%string) []); (Field (Some "digest"%string) 15%N (Some "Digest"%string) [])]) []).
Definition md_t105 : ty := 
 (Ty ["sp_consensus_babe"%string; "app"%string; "Public"%string] [] (TComposite [(Field None 1%N (Some "sr25519::Public"%string) [])]) []).
Definition md_t106 : ty := 
 (Ty ["sp_consensus_slots"%string; "Slot"%string] [] (TComposite [(Field None 12%N (Some "u64"%string) [])]) []).
Definition md_t107 : ty := 
 (Ty ["sp_session"%string; "MembershipProof"%string] [] (TComposite [(Field (Some "session"%string) 4%N (Some "SessionIndex"%string) []); (Field (Some "trie_nodes"%string) 97%N (Some "Vec<Vec<u8>>"%string) []); (Field (Some "validator_count"%string) 4%N (Some "ValidatorCount"%string) [])]) []).
Definition md_t108 : ty := 
 (Ty ["sp_consensus_babe"%string; "digests"%string; "NextConfigDescriptor"%string] [] (TVariant [(Variant "V1"%string [(Field (Some "c"%string) 109%N (Some "(u64, u64)"%string) []); (Field (Some "allowed_slots"%string) 110%N (Some "AllowedSlots"%string) [])] 1%N [])]) []).
Definition md_t109 : ty := 
 (Ty [] [] (TTuple [12%N; 12%N]) []).
Definition md_t110 : ty := 
 (Ty ["sp_consensus_babe"%string; "AllowedSlots"%string] [] (TVariant [(Variant "PrimarySlots"%string [] 0%N []); (Variant "PrimaryAndSecondaryPlainSlots"%string [] 1%N []); (Variant "PrimaryAndSecondaryVRFSlots"%string [] 2%N [])]) []).
Definition md_t111 : ty := 
 (Ty ["pallet_timestamp"%string; "pallet"%string; "Call"%string] [("T"%string,None)] (TVariant [(Variant "set"%string [(Field (Some "now"%string) 11%N (Some "T::Moment"%string) [])] 0%N [])]) []).
Definition md_t112 : ty := 
 (Ty ["pallet_indices"%string; "pallet"%string; "Call"%string] [("T"%string,None)] (TVariant [(Variant "claim"%string [(Field (Some "index"%string) 4%N (Some "T::AccountIndex"%string) [])] 0%N []); (Variant "transfer"%string [(Field (Some "new"%string) 113%N (Some "AccountIdLookupOf<T>"%string) []); (Field (Some "index"%string) 4%N (Some "T::AccountIndex"%string) [])] 1%N []); (Variant "free"%string [(Field (Some "index"%string) 4%N (Some "T::AccountIndex"%string) [])] 2%N []); (Variant "force_transfer"%string [(Field (Some "new"%string) 113%N (Some "AccountIdLookupOf<T>"%string) []); (Field (Some "index"%string) 4%N (Some "T::AccountIndex"%string) []); (Field (Some "freeze"%string) 8%N (Some "bool"%string) [])] 3%N []); (Variant "freeze"%string [(Field (Some "index"%string) 4%N (Some "T::AccountIndex"%string) [])] 4%N [])]) []).
Definition md_t113 : ty := 
 (Ty ["sp_runtime"%string; "multiaddress"%string; "MultiAddress"%string] [("AccountId"%string,(Some 0%N)); ("AccountIndex"%string,(Some 35%N))] (TVariant [(Variant "Id"%string [(Field None 0%N (Some "AccountId"%string) [])] 0%N []); (Variant "Index"%string [(Field None 114%N (Some "AccountIndex"%string) [])] 1%N []); (Variant "Raw"%string [(Field None 14%N (Some "Vec<u8>"%string) [])] 2%N []); (Variant "Address32"%string [(Field None 1%N (Some "[u8; 32]"%string) [])] 3%N []); (Variant "Address20"%string [(Field None 62%N (Some "[u8; 20]"%string) [])] 4%N [])]) []).
Definition md_t114 : ty := 
 (Ty [] [] (TCompact 35%N) []).
Definition md_t115 : ty := 
 (Ty ["pallet_balances"%string; "pallet"%string; "Call"%string] [("T"%string,None); ("I"%string,None)] (TVariant [(Variant "transfer_allow_death"%string [(Field (Some "dest"%string) 113%N (Some "AccountIdLookupOf<T>"%string) []); (Field (Some "value"%string) 63%N (Some "T::Balance"%string) [])] 0%N []); (Variant "force_transfer"%string [(Field (Some "source"%string) 113%N (Some "AccountIdLookupOf<T>"%string) []); (Field (Some "dest"%string) 113%N (Some "AccountIdLookupOf<T>"%string) []); (Field (Some "value"%string) 63%N (Some "T::Balance"%string) [])] 2%N []); (Variant "transfer_keep_alive"%string [(Field (Some "dest"%string) 113%N (Some "AccountIdLookupOf<T>"%string) []); (Field (Some "value"%string) 63%N (Some "T::Balance"%string) [])] 3%N []); (Variant "transfer_all"%string [(Field (Some "dest"%string) 113%N (Some "AccountIdLookupOf<T>"%string) []); (Field (Some "keep_alive"%string) 8%N (Some "bool"%string) [])] 4%N []); (Variant "force_unreserve"%string [(Field (Some "who"%string) 113%N (Some "AccountIdLookupOf<T>"%string) []); (Field (Some "amount"%string) 6%N (Some "T::Balance"%string) [])] 5%N []); (Variant "upgrade_accounts"%string [(Field (Some "who"%string) 116%N (Some "Vec<T::AccountId>"%string) [])] 6%N []); (Variant "force_set_balance"%string [(Field (Some "who"%string) 113%N (Some "AccountIdLookupOf<T>"%string) []); (Field (Some "new_free"%string) 63%N (Some "T::Balance"%string) [])] 8%N []); (Variant "force_adjust_total_issuance"%string [(Field (Some "direction"%string) 117%N (Some "AdjustmentDirection"%string) []); (Field (Some "delta"%string) 63%N (Some "T::Balance"%string) [])] 9%N []); (Variant "burn"%string [(Field (Some "value"%string) 63%N (Some "T::Balance"%string) []); (Field (Some "keep_alive"%string) 8%N (Some "bool"%string) [])] 10%N [])]) []).
Definition md_t116 : ty := 
 (Ty [] [] (TSequence 0%N) []).
Definition md_t117 : ty := 
 (Ty ["pallet_balances"%string; "types"%string; "AdjustmentDirection"%string] [] (TVariant [(Variant "Increase"%string [] 0%N []); (Variant "Decrease"%string [] 1%N [])]) []).
Definition md_t118 : ty := 
 (Ty ["pallet_staking"%string; "pallet"%string; "pallet"%string; "Call"%string] [("T"%string,None)] (TVariant [(Variant "bond"%string [(Field (Some "value"%string) 63%N (Some "BalanceOf<T>"%string) []); (Field (Some "payee"%string) 42%N (Some "RewardDestination<T::AccountId>"%string) [])] 0%N []); (Variant "bond_extra"%string [(Field (Some "max_additional"%string) 63%N (Some "BalanceOf<T>"%string) [])] 1%N []); (Variant "unbond"%string [(Field (Some "value"%string) 63%N (Some "BalanceOf<T>"%string) [])] 2%N []); (Variant "withdraw_unbonded"%string [(Field (Some "num_slashing_spans"%string) 4%N (Some "u32"%string) [])] 3%N []); (Variant "validate"%string [(Field (Some "prefs"%string) 44%N (Some "ValidatorPrefs"%string) [])] 4%N []); (Variant "nominate"%string [(Field (Some "targets"%string) 119%N (Some "Vec<AccountIdLookupOf<T>>"%string) [])] 5%N []); (Variant "chill"%string [] 6%N []); (Variant "set_payee"%string [(Field (Some "payee"%string) 42%N (Some "RewardDestination<T::AccountId>"%string) [])] 7%N []); (Variant "set_controller"%string [] 8%N []); (Variant "set_validator_count"%string [(Field (Some "new"%string) 59%N (Some "u32"%string) [])] 9%N []); (Variant "increase_validator_count"%string [(Field (Some "additional"%string) 59%N (Some "u32"%string) [])] 10%N []); (Variant "scale_validator_count"%string [(Field (Some "factor"%string) 120%N (Some "Percent"%string) [])] 11%N []); (Variant "force_no_eras"%string [] 12%N []); (Variant "force_new_era"%string [] 13%N []); (Variant "set_invulnerables"%string [(Field (Some "invulnerables"%string) 116%N (Some "Vec<T::AccountId>"%string) [])] 14%N []); (Variant "force_unstake"%string [(Field (Some "stash"%string) 0%N (Some "T::AccountId"%string) []); (Field (Some "num_slashing_spans"%string) 4%N (Some "u32"%string) [])] 15%N []); (Variant "force_new_era_always"%string [] 16%N []); (Variant "cancel_deferred_slash"%string [(Field (Some "era"%string) 4%N (Some "EraIndex"%string) []); (Field (Some "slash_indices"%string) 121%N (Some "Vec<u32>"%string) [])] 17%N []); (Variant "payout_stakers"%string [(Field (Some "validator_stash"%string) 0%N (Some "T::AccountId"%string) []); (Field (Some "era"%string) 4%N (Some "EraIndex"%string) [])] 18%N []); (Variant "rebond"%string [(Field (Some "value"%string) 63%N (Some "BalanceOf<T>"%string) [])] 19%N []); (Variant "reap_stash"%string [(Field (Some "stash"%string) 0%N (Some "T::AccountId"%string) []); (Field (Some "num_slashing_spans"%string) 4%N (Some "u32"%string) [])] 20%N []); (Variant "kick"%string [(Field (Some "who"%string) 119%N (Some "Vec<AccountIdLookupOf<T>>"%string) [])] 21%N []); (Variant "set_staking_configs"%string [(Field (Some "min_nominator_bond"%string) 122%N (Some "ConfigOp<BalanceOf<T>>"%string) []); (Field (Some "min_validator_bond"%string) 122%N (Some "ConfigOp<BalanceOf<T>>"%string) []); (Field (Some "max_nominator_count"%string) 123%N (Some "ConfigOp<u32>"%string) []); (Field (Some "max_validator_count"%string) 123%N (Some "ConfigOp<u32>"%string) []); (Field (Some "chill_threshold"%string) 124%N (Some "ConfigOp<Percent>"%string) []); (Field (Some "min_commission"%string) 125%N (Some "ConfigOp<Perbill>"%string) []); (Field (Some "max_staked_rewards"%string) 124%N (Some "ConfigOp<Percent>"%string) [])] 22%N []); (Variant "chill_other"%string [(Field (Some "stash"%string) 0%N (Some "T::AccountId"%string) [])] 23%N []); (Variant "force_apply_min_commission"%string [(Field (Some "validator_stash"%string) 0%N (Some "T::AccountId"%string) [])] 24%N []); (Variant "set_min_commission"%string [(Field (Some "new"%string) 43%N (Some "Perbill"%string) [])] 25%N []); (Variant "payout_stakers_by_page"%string [(Field (Some "validator_stash"%string) 0%N (Some "T::AccountId"%string) []); (Field (Some "era"%string) 4%N (Some "EraIndex"%string) []); (Field (Some "page"%string) 4%N (Some "Page"%string) [])] 26%N []); (Variant "update_payee"%string [(Field (Some "controller"%string) 0%N (Some "T::AccountId"%string) [])] 27%N []); (Variant "deprecate_controller_batch"%string [(Field (Some "controllers"%string) 126%N (Some "BoundedVec<T::AccountId, T::MaxControllersInDeprecationBatch>"%string) [])] 28%N []); (Variant "restore_ledger"%string [(Field (Some "stash"%string) 0%N (Some "T::AccountId"%string) []); (Field (Some "maybe_controller"%string) 127%N (Some "Option<T::AccountId>"%string) []); (Field (Some "maybe_total"%string) 128%N (Some "Option<BalanceOf<T>>"%string) []); (Field (Some "maybe_unlocking"%string) 129%N (Some "Option<BoundedVec<UnlockChunk<BalanceOf<T>>, T::
MaxUnlockingChunks>>"%string) [])] 29%N [])]) []).
Definition md_t119 : ty := 
 (Ty [] [] (TSequence 113%N) []).
Definition md_t120 : ty := 
 (Ty ["sp_arithmetic"%string; "per_things"%string; "Percent"%string] [] (TComposite [(Field None 2%N (Some "u8"%string) [])]) []).
Definition md_t121 : ty := 
 (Ty [] [] (TSequence 4%N) []).
Definition md_t122 : ty := 
 (Ty ["pallet_staking"%string; "pallet"%string; "pallet"%string; "ConfigOp"%string] [("T"%string,(Some 6%N))] (TVariant [(Variant "Noop"%string [] 0%N []); (Variant "Set"%string [(Field None 6%N (Some "T"%string) [])] 1%N []); (Variant "Remove"%string [] 2%N [])]) []).
Definition md_t123 : ty := 
 (Ty ["pallet_staking"%string; "pallet"%string; "pallet"%string; "ConfigOp"%string] [("T"%string,(Some 4%N))] (TVariant [(Variant "Noop"%string [] 0%N []); (Variant "Set"%string [(Field None 4%N (Some "T"%string) [])] 1%N []); (Variant "Remove"%string [] 2%N [])]) []).
Definition md_t124 : ty := 
 (Ty ["pallet_staking"%string; "pallet"%string; "pallet"%string; "ConfigOp"%string] [("T"%string,(Some 120%N))] (TVariant [(Variant "Noop"%string [] 0%N []); (Variant "Set"%string [(Field None 120%N (Some "T"%string) [])] 1%N []); (Variant "Remove"%string [] 2%N [])]) []).
Definition md_t125 : ty := 
 (Ty ["pallet_staking"%string; "pallet"%string; "pallet"%string; "ConfigOp"%string] [("T"%string,(Some 43%N))] (TVariant [(Variant "Noop"%string [] 0%N []); (Variant "Set"%string [(Field None 43%N (Some "T"%string) [])] 1%N []); (Variant "Remove"%string [] 2%N [])]) []).
Definition md_t126 : ty := 
 (Ty ["bounded_collections"%string; "bounded_vec"%string; "BoundedVec"%string] [("T"%string,(Some 0%N)); ("S"%string,None)] (TComposite [(Field None 116%N (Some "Vec<T>"%string) [])]) []).
Definition md_t127 : ty := 
 (Ty ["Option"%string] [("T"%string,(Some 0%N))] (TVariant [(Variant "None"%string [] 0%N []); (Variant "Some"%string [(Field None 0%N None [])] 1%N [])]) []).
Definition md_t128 : ty := 
 (Ty ["Option"%string] [("T"%string,(Some 6%N))] (TVariant [(Variant "None"%string [] 0%N []); (Variant "Some"%string [(Field None 6%N None [])] 1%N [])]) []).
Definition md_t129 : ty := 
 (Ty ["Option"%string] [("T"%string,(Some 130%N))] (TVariant [(Variant "None"%string [] 0%N []); (Variant "Some"%string [(Field None 130%N None [])] 1%N [])]) []).
Definition md_t130 : ty := 
 (Ty ["bounded_collections"%string; "bounded_vec"%string; "BoundedVec"%string] [("T"%string,(Some 131%N)); ("S"%string,None)] (TComposite [(Field None 132%N (Some "Vec<T>"%string) [])]) []).
Definition md_t131 : ty := 
 (Ty ["pallet_staking"%string; "UnlockChunk"%string] [("Balance"%string,(Some 6%N))] (TComposite [(Field (Some "value"%string) 63%N (Some "Balance"%string) []); (Field (Some "era"%string) 59%N (Some "EraIndex"%string) [])]) []).
Definition md_t132 : ty := 
 (Ty [] [] (TSequence 131%N) []).
Definition md_t133 : ty := 
 (Ty ["pallet_session"%string; "pallet"%string; "Call"%string] [("T"%string,None)] (TVariant [(Variant "set_keys"%string [(Field (Some "keys"%string) 134%N (Some "T::Keys"%string) []); (Field (Some "proof"%string) 14%N (Some "Vec<u8>"%string) [])] 0%N []); (Variant "purge_keys"%string [] 1%N [])]) []).
Definition md_t134 : ty := 
 (Ty ["polkadot_runtime"%string; "SessionKeys"%string] [] (TComposite [(Field (Some "grandpa"%string) 53%N (Some "<Grandpa as $crate::BoundToRuntimeAppPublic>::Public"%string) []); (Field (Some "babe"%string) 105%N (Some "<Babe as $crate::BoundToRuntimeAppPublic>::Public"%string) []); (Field (Some "para_validator"%string) 135%N (Some "<Initializer as $crate::BoundToRuntimeAppPublic>::Public"%string) []); (Field (Some "para_assignment"%string) 136%N (Some "<ParaSessionInfo as $crate::BoundToRuntimeAppPublic>::Public"%string) []); (Field (Some "authority_discovery"%string) 137%N (Some "<AuthorityDiscovery as $crate::BoundToRuntimeAppPublic>::Public"%string) []); (Field (Some "beefy"%string) 138%N (Some "<Beefy as $crate::BoundToRuntimeAppPublic>::Public"%string) [])]) []).
Definition md_t135 : ty := 
 (Ty ["polkadot_primitives"%string; "v7"%string; "validator_app"%string; "Public"%string] [] (TComposite [(Field None 1%N (Some "sr25519::Public"%string) [])]) []).
Definition md_t136 : ty := 
 (Ty ["polkadot_primitives"%string; "v7"%string; "assignment_app"%string; "Public"%string] [] (TComposite [(Field None 1%N (Some "sr25519::Public"%string) [])]) []).
Definition md_t137 : ty := 
 (Ty ["sp_authority_discovery"%string; "app"%string; "Public"%string] [] (TComposite [(Field None 1%N (Some "sr25519::Public"%string) [])]) []).
Definition md_t138 : ty := 
 (Ty ["sp_consensus_beefy"%string; "ecdsa_crypto"%string; "Public"%string] [] (TComposite [(Field None 139%N (Some "ecdsa::Public"%string) [])]) []).
Definition md_t139 : ty := 
 (Ty [] [] (TArray 33%N 2%N) []).
Definition md_t140 : ty := 
 (Ty ["pallet_grandpa"%string; "pallet"%string; "Call"%string] [("T"%string,None)] (TVariant [(Variant "report_equivocation"%string [(Field (Some "equivocation_proof"%string) 141%N (Some "Box<EquivocationProof<T::Hash, BlockNumberFor<T>>>"%string) []); (Field (Some "key_owner_proof"%string) 107%N (Some "T::KeyOwnerProof"%string) [])] 0%N []); (Variant "report_equivocation_unsigned"%string [(Field (Some "equivocation_proof"%string) 141%N (Some "Box<EquivocationProof<T::Hash, BlockNumberFor<T>>>"%string) []); (Field (Some "key_owner_proof"%string) 107%N (Some "T::KeyOwnerProof"%string) [])] 1%N []); (Variant "note_stalled"%string [(Field (Some "delay"%string) 4%N (Some "BlockNumberFor<T>"%string) []); (Field (Some "best_finalized_block_number"%string) 4%N (Some "BlockNumberFor<T>"%string) [])] 2%N [])]) []).
Definition md_t141 : ty := 
 (Ty ["sp_consensus_grandpa"%string; "EquivocationProof"%string] [("H"%string,(Some 13%N)); ("N"%string,(Some 4%N))] (TComposite [(Field (Some "set_id"%string) 12%N (Some "SetId"%string) []); (Field (Some "equivocation"%string) 142%N (Some "Equivocation<H, N>"%string) [])]) []).
Definition md_t142 : ty := 
 (Ty ["sp_consensus_grandpa"%string; "Equivocation"%string] [("H"%string,(Some 13%N)); ("N"%string,(Some 4%N))] (TVariant [(Variant "Prevote"%string [(Field None 143%N (Some "finality_grandpa::Equivocation<AuthorityId, finality_grandpa::Prevote<
H, N>, AuthoritySignature,>"%string) [])] 0%N []); (Variant "Precommit"%string [(Field None 148%N (Some "finality_grandpa::Equivocation<AuthorityId, finality_grandpa::Precommit
<H, N>, AuthoritySignature,>"%string) [])] 1%N [])]) []).
Definition md_t143 : ty := 
 (Ty ["finality_grandpa"%string; "Equivocation"%string] [("Id"%string,(Some 53%N)); ("V"%string,(Some 144%N)); ("S"%string,(Some 145%N))] (TComposite [(Field (Some "round_number"%string) 12%N (Some "u64"%string) []); (Field (Some "identity"%string) 53%N (Some "Id"%string) []); (Field (Some "first"%string) 147%N (Some "(V, S)"%string) []); (Field (Some "second"%string) 147%N (Some "(V, S)"%string) [])]) []).
Definition md_t144 : ty := 
 (Ty ["finality_grandpa"%string; "Prevote"%string] [("H"%string,(Some 13%N)); ("N"%string,(Some 4%N))] (TComposite [(Field (Some "target_hash"%string) 13%N (Some "H"%string) []); (Field (Some "target_number"%string) 4%N (Some "N"%string) [])]) []).
Definition md_t145 : ty := 
 (Ty ["sp_consensus_grandpa"%string; "app"%string; "Signature"%string] [] (TComposite [(Field None 146%N (Some "ed25519::Signature"%string) [])]) []).
Definition md_t146 : ty := 
 (Ty [] [] (TArray 64%N 2%N) []).
Definition md_t147 : ty := 
 (Ty [] [] (TTuple [144%N; 145%N]) []).
Definition md_t148 : ty := 
 (Ty ["finality_grandpa"%string; "Equivocation"%string] [("Id"%string,(Some 53%N)); ("V"%string,(Some 149%N)); ("S"%string,(Some 145%N))] (TComposite [(Field (Some "round_number"%string) 12%N (Some "u64"%string) []); (Field (Some "identity"%string) 53%N (Some "Id"%string) []); (Field (Some "first"%string) 150%N (Some "(V, S)"%string) []); (Field (Some "second"%string) 150%N (Some "(V, S)"%string) [])]) []).
Definition md_t149 : ty := 
 (Ty ["finality_grandpa"%string; "Precommit"%string] [("H"%string,(Some 13%N)); ("N"%string,(Some 4%N))] (TComposite [(Field (Some "target_hash"%string) 13%N (Some "H"%string) []); (Field (Some "target_number"%string) 4%N (Some "N"%string) [])]) []).
Definition md_t150 : ty := 
 (Ty [] [] (TTuple [149%N; 145%N]) []).
Definition md_t151 : ty := 
 (Ty ["pallet_treasury"%string; "pallet"%string; "Call"%string] [("T"%string,None); ("I"%string,None)] (TVariant [(Variant "spend_local"%string [(Field (Some "amount"%string) 63%N (Some "BalanceOf<T, I>"%string) []); (Field (Some "beneficiary"%string) 113%N (Some "AccountIdLookupOf<T>"%string) [])] 3%N []); (Variant "remove_approval"%string [(Field (Some "proposal_id"%string) 59%N (Some "ProposalIndex"%string) [])] 4%N []); (Variant "spend"%string [(Field (Some "asset_kind"%string) 55%N (Some "Box<T::AssetKind>"%string) []); (Field (Some "amount"%string) 63%N (Some "AssetBalanceOf<T, I>"%string) []); (Field (Some "beneficiary"%string) 81%N (Some "Box<BeneficiaryLookupOf<T, I>>"%string) []); (Field (Some "valid_from"%string) 152%N (Some "Option<BlockNumberFor<T>>"%string) [])] 5%N []); (Variant "payout"%string [(Field (Some "index"%string) 4%N (Some "SpendIndex"%string) [])] 6%N []); (Variant "check_status"%string [(Field (Some "index"%string) 4%N (Some "SpendIndex"%string) [])] 7%N []); (Variant "void_spend"%string [(Field (Some "index"%string) 4%N (Some "SpendIndex"%string) [])] 8%N [])]) []).
Definition md_t152 : ty := 
 (Ty ["Option"%string] [("T"%string,(Some 4%N))] (TVariant [(Variant "None"%string [] 0%N []); (Variant "Some"%string [(Field None 4%N None [])] 1%N [])]) []).
Definition md_t153 : ty := 
 (Ty ["pallet_conviction_voting"%string; "pallet"%string; "Call"%string] [("T"%string,None); ("I"%string,None)] (TVariant [(Variant "vote"%string [(Field (Some "poll_index"%string) 59%N (Some "PollIndexOf<T, I>"%string) []); (Field (Some "vote"%string) 154%N (Some "AccountVote<BalanceOf<T, I>>"%string) [])] 0%N []); (Variant "delegate"%string [(Field (Some "class"%string) 91%N (Some "ClassOf<T, I>"%string) []); (Field (Some "to"%string) 113%N (Some "AccountIdLookupOf<T>"%string) []); (Field (Some "conviction"%string) 156%N (Some "Conviction"%string) []); (Field (Some "balance"%string) 6%N (Some "BalanceOf<T, I>"%string) [])] 1%N []); (Variant "undelegate"%string [(Field (Some "class"%string) 91%N (Some "ClassOf<T, I>"%string) [])] 2%N []); (Variant "unlock"%string [(Field (Some "class"%string) 91%N (Some "ClassOf<T, I>"%string) []); (Field (Some "target"%string) 113%N (Some "AccountIdLookupOf<T>"%string) [])] 3%N []); (Variant "remove_vote"%string [(Field (Some "class"%string) 157%N (Some "Option<ClassOf<T, I>>"%string) []); (Field (Some "index"%string) 4%N (Some "PollIndexOf<T, I>"%string) [])] 4%N []); (Variant "remove_other_vote"%string [(Field (Some "target"%string) 113%N (Some "AccountIdLookupOf<T>"%string) []); (Field (Some "class"%string) 91%N (Some "ClassOf<T, I>"%string) []); (Field (Some "index"%string) 4%N (Some "PollIndexOf<T, I>"%string) [])] 5%N [])]) []).
Definition md_t154 : ty := 
 (Ty ["pallet_conviction_voting"%string; "vote"%string; "AccountVote"%string] [("Balance"%string,(Some 6%N))] (TVariant [(Variant "Standard"%string [(Field (Some "vote"%string) 155%N (Some "Vote"%string) []); (Field (Some "balance"%string) 6%N (Some "Balance"%string) [])] 0%N []); (Variant "Split"%string [(Field (Some "aye"%string) 6%N (Some "Balance"%string) []); (Field (Some "nay"%string) 6%N (Some "Balance"%string) [])] 1%N []); (Variant "SplitAbstain"%string [(Field (Some "aye"%string) 6%N (Some "Balance"%string) []); (Field (Some "nay"%string) 6%N (Some "Balance"%string) []); (Field (Some "abstain"%string) 6%N (Some "Balance"%string) [])] 2%N [])]) []).
Definition md_t155 : ty := 
 (Ty ["pallet_conviction_voting"%string; "vote"%string; "Vote"%string] [] (TComposite [(Field None 2%N None [])]) []).
Definition md_t156 : ty := 
 (Ty ["pallet_conviction_voting"%string; "conviction"%string; "Conviction"%string] [] (TVariant [(Variant "None"%string [] 0%N []); (Variant "Locked1x"%string [] 1%N []); (Variant "Locked2x"%string [] 2%N []); (Variant "Locked3x"%string [] 3%N []); (Variant "Locked4x"%string [] 4%N []); (Variant "Locked5x"%string [] 5%N []); (Variant "Locked6x"%string [] 6%N [])]) []).
Definition md_t157 : ty := 
 (Ty ["Option"%string] [("T"%string,(Some 91%N))] (TVariant [(Variant "None"%string [] 0%N []); (Variant "Some"%string [(Field None 91%N None [])] 1%N [])]) []).
Definition md_t158 : ty := 
 (Ty ["pallet_referenda"%string; "pallet"%string; "Call"%string] [("T"%string,None); ("I"%string,None)] (TVariant [(Variant "submit"%string [(Field (Some "proposal_origin"%string) 159%N (Some "Box<PalletsOriginOf<T>>"%string) []); (Field (Some "proposal"%string) 92%N (Some "BoundedCallOf<T, I>"%string) []); (Field (Some "enactment_moment"%string) 166%N (Some "DispatchTime<BlockNumberFor<T>>"%string) [])] 0%N []); (Variant "place_decision_deposit"%string [(Field (Some "index"%string) 4%N (Some "ReferendumIndex"%string) [])] 1%N []); (Variant "refund_decision_deposit"%string [(Field (Some "index"%string) 4%N (Some "ReferendumIndex"%string) [])] 2%N []); (Variant "cancel"%string [(Field (Some "index"%string) 4%N (Some "ReferendumIndex"%string) [])] 3%N []); (Variant "kill"%string [(Field (Some "index"%string) 4%N (Some "ReferendumIndex"%string) [])] 4%N []); (Variant "nudge_referendum"%string [(Field (Some "index"%string) 4%N (Some "ReferendumIndex"%string) [])] 5%N []); (Variant "one_fewer_deciding"%string [(Field (Some "track"%string) 91%N (Some "TrackIdOf<T, I>"%string) [])] 6%N []); (Variant "refund_submission_deposit"%string [(Field (Some "index"%string) 4%N (Some "ReferendumIndex"%string) [])] 7%N []); (Variant "set_metadata"%string [(Field (Some "index"%string) 4%N (Some "ReferendumIndex"%string) []); (Field (Some "maybe_hash"%string) 167%N (Some "Option<T::Hash>"%string) [])] 8%N [])]) []).
Definition md_t159 : ty := 
 (Ty ["polkadot_runtime"%string; "OriginCaller"%string] [] (TVariant [(Variant "system"%string [(Field None 160%N (Some "frame_system::Origin<Runtime>"%string) [])] 0%N []); (Variant "Origins"%string [(Field None 161%N (Some "pallet_custom_origins::Origin"%string) [])] 22%N []); (Variant "ParachainsOrigin"%string [(Field None 162%N (Some "parachains_origin::Origin"%string) [])] 50%N []); (Variant "XcmPallet"%string [(Field None 164%N (Some "pallet_xcm::Origin"%string) [])] 99%N []); (Variant "Void"%string [(Field None 165%N (Some "self::sp_api_hidden_includes_construct_runtime::hidden_include::
__private::Void"%string) [])] 4%N [])]) []).
Definition md_t160 : ty := 
 (Ty ["frame_support"%string; "dispatch"%string; "RawOrigin"%string] [("AccountId"%string,(Some 0%N))] (TVariant [(Variant "Root"%string [] 0%N []); (Variant "Signed"%string [(Field None 0%N (Some "AccountId"%string) [])] 1%N []); (Variant "None"%string [] 2%N [])]) []).
Definition md_t161 : ty := 
 (Ty ["polkadot_runtime"%string; "governance"%string; "origins"%string; "pallet_custom_origins"%string; "Origin"%string] [] (TVariant [(Variant "StakingAdmin"%string [] 0%N []); (Variant "Treasurer"%string [] 1%N []); (Variant "FellowshipAdmin"%string [] 2%N []); (Variant "GeneralAdmin"%string [] 3%N []); (Variant "AuctionAdmin"%string [] 4%N []); (Variant "LeaseAdmin"%string [] 5%N []); (Variant "ReferendumCanceller"%string [] 6%N []); (Variant "ReferendumKiller"%string [] 7%N []); (Variant "SmallTipper"%string [] 8%N []); (Variant "BigTipper"%string [] 9%N []); (Variant "SmallSpender"%string [] 10%N []); (Variant "MediumSpender"%string [] 11%N []); (Variant "BigSpender"%string [] 12%N []); (Variant "WhitelistedCaller"%string [] 13%N []); (Variant "WishForChange"%string [] 14%N [])]) []).
Definition md_t162 : ty := 
 (Ty ["polkadot_runtime_parachains"%string; "origin"%string; "pallet"%string; "Origin"%string] [] (TVariant [(Variant "Parachain"%string [(Field None 163%N (Some "ParaId"%string) [])] 0%N [])]) []).
Definition md_t163 : ty := 
 (Ty ["polkadot_parachain_primitives"%string; "primitives"%string; "Id"%string] [] (TComposite [(Field None 4%N (Some "u32"%string) [])]) []).
Definition md_t164 : ty := 
 (Ty ["pallet_xcm"%string; "pallet"%string; "Origin"%string] [] (TVariant [(Variant "Xcm"%string [(Field None 67%N (Some "Location"%string) [])] 0%N []); (Variant "Response"%string [(Field None 67%N (Some "Location"%string) [])] 1%N [])]) []).
Definition md_t165 : ty := 
 (Ty ["sp_core"%string; "Void"%string] [] (TVariant []) []).
Definition md_t166 : ty := 
 (Ty ["frame_support"%string; "traits"%string; "schedule"%string; "DispatchTime"%string] [("BlockNumber"%string,(Some 4%N))] (TVariant [(Variant "At"%string [(Field None 4%N (Some "BlockNumber"%string) [])] 0%N []); (Variant "After"%string [(Field None 4%N (Some "BlockNumber"%string) [])] 1%N [])]) []).
Definition md_t167 : ty := 
 (Ty ["Option"%string] [("T"%string,(Some 13%N))] (TVariant [(Variant "None"%string [] 0%N []); (Variant "Some"%string [(Field None 13%N None [])] 1%N [])]) []).
Definition md_t168 : ty := 
 (Ty ["pallet_whitelist"%string; "pallet"%string; "Call"%string] [("T"%string,None)] (TVariant [(Variant "whitelist_call"%string [(Field (Some "call_hash"%string) 13%N (Some "T::Hash"%string) [])] 0%N []); (Variant "remove_whitelisted_call"%string [(Field (Some "call_hash"%string) 13%N (Some "T::Hash"%string) [])] 1%N []); (Variant "dispatch_whitelisted_call"%string [(Field (Some "call_hash"%string) 13%N (Some "T::Hash"%string) []); (Field (Some "call_encoded_len"%string) 4%N (Some "u32"%string) []); (Field (Some "call_weight_witness"%string) 10%N (Some "Weight"%string) [])] 2%N []); (Variant "dispatch_whitelisted_call_with_preimage"%string [(Field (Some "call"%string) 93%N (Some "Box<<T as Config>::RuntimeCall>"%string) [])] 3%N [])]) []).
Definition md_t169 : ty := 
 (Ty ["pallet_parameters"%string; "pallet"%string; "Call"%string] [("T"%string,None)] (TVariant [(Variant "set_parameter"%string [(Field (Some "key_value"%string) 170%N (Some "T::RuntimeParameters"%string) [])] 0%N [])]) []).
Definition md_t170 : ty := 
 (Ty ["polkadot_runtime"%string; "RuntimeParameters"%string] [] (TVariant [(Variant "Inflation"%string [(Field None 171%N (Some "dynamic_params::inflation::Parameters"%string) [])] 0%N [])]) []).
Definition md_t171 : ty := 
 (Ty ["polkadot_runtime"%string; "dynamic_params"%string; "inflation"%string; "Parameters"%string] [] (TVariant [(Variant "MinInflation"%string [(Field None 172%N (Some "MinInflation"%string) []); (Field None 173%N (Some "Option<Perquintill>"%string) [])] 0%N []); (Variant "MaxInflation"%string [(Field None 175%N (Some "MaxInflation"%string) []); (Field None 173%N (Some "Option<Perquintill>"%string) [])] 1%N []); (Variant "IdealStake"%string [(Field None 176%N (Some "IdealStake"%string) []); (Field None 173%N (Some "Option<Perquintill>"%string) [])] 2%N []); (Variant "Falloff"%string [(Field None 177%N (Some "Falloff"%string) []); (Field None 173%N (Some "Option<Perquintill>"%string) [])] 3%N []); (Variant "UseAuctionSlots"%string [(Field None 178%N (Some "UseAuctionSlots"%string) []); (Field None 179%N (Some "Option<bool>"%string) [])] 4%N [])]) []).
Definition md_t172 : ty := 
 (Ty ["polkadot_runtime"%string; "dynamic_params"%string; "inflation"%string; "MinInflation"%string] [] (TComposite []) []).
Definition md_t173 : ty := 
 (Ty ["Option"%string] [("T"%string,(Some 174%N))] (TVariant [(Variant "None"%string [] 0%N []); (Variant "Some"%string [(Field None 174%N None [])] 1%N [])]) []).
Definition md_t174 : ty := 
 (Ty ["sp_arithmetic"%string; "per_things"%string; "Perquintill"%string] [] (TComposite [(Field None 12%N (Some "u64"%string) [])]) []).
Definition md_t175 : ty := 
 (Ty ["polkadot_runtime"%string; "dynamic_params"%string; "inflation"%string; "MaxInflation"%string] [] (TComposite []) []).
Definition md_t176 : ty := 
 (Ty ["polkadot_runtime"%string; "dynamic_params"%string; "inflation"%string; "IdealStake"%string] [] (TComposite []) []).
Definition md_t177 : ty := 
 (Ty ["polkadot_runtime"%string; "dynamic_params"%string; "inflation"%string; "Falloff"%string] [] (TComposite []) []).
Definition md_t178 : ty := 
 (Ty ["polkadot_runtime"%string; "dynamic_params"%string; "inflation"%string; "UseAuctionSlots"%string] [] (TComposite []) []).
Definition md_t179 : ty := 
 (Ty ["Option"%string] [("T"%string,(Some 8%N))] (TVariant [(Variant "None"%string [] 0%N []); (Variant "Some"%string [(Field None 8%N None [])] 1%N [])]) []).
Definition md_t180 : ty := 
 (Ty ["polkadot_runtime_common"%string; "claims"%string; "pallet"%string; "Call"%string] [("T"%string,None)] (TVariant [(Variant "claim"%string [(Field (Some "dest"%string) 0%N (Some "T::AccountId"%string) []); (Field (Some "ethereum_signature"%string) 181%N (Some "EcdsaSignature"%string) [])] 0%N []); (Variant "mint_claim"%string [(Field (Some "who"%string) 183%N (Some "EthereumAddress"%string) []); (Field (Some "value"%string) 6%N (Some "BalanceOf<T>"%string) []); (Field (Some "vesting_schedule"%string) 184%N (Some "Option<(BalanceOf<T>, BalanceOf<T>, BlockNumberFor<T>)>"%string) []); (Field (Some "statement"%string) 186%N (Some "Option<StatementKind>"%string) [])] 1%N []); (Variant "claim_attest"%string [(Field (Some "dest"%string) 0%N (Some "T::AccountId"%string) []); (Field (Some "ethereum_signature"%string) 181%N (Some "EcdsaSignature"%string) []); (Field (Some "statement"%string) 14%N (Some "Vec<u8>"%string) [])] 2%N []); (Variant "attest"%string [(Field (Some "statement"%string) 14%N (Some "Vec<u8>"%string) [])] 3%N []); (Variant "move_claim"%string [(Field (Some "old"%string) 183%N (Some "EthereumAddress"%string) []); (Field (Some "new"%string) 183%N (Some "EthereumAddress"%string) []); (Field (Some "maybe_preclaim"%string) 127%N (Some "Option<T::AccountId>"%string) [])] 4%N [])]) []).
Definition md_t181 : ty := 
 (Ty ["polkadot_runtime_common"%string; "claims"%string; "EcdsaSignature"%string] [] (TComposite [(Field None 182%N (Some "[u8; 65]"%string) [])]) []).
Definition md_t182 : ty := 
 (Ty [] [] (TArray 65%N 2%N) []).
Definition md_t183 : ty := 
 (Ty ["polkadot_runtime_common"%string; "claims"%string; "EthereumAddress"%string] [] (TComposite [(Field None 62%N (Some "[u8; 20]"%string) [])]) []).
Definition md_t184 : ty := 
 (Ty ["Option"%string] [("T"%string,(Some 185%N))] (TVariant [(Variant "None"%string [] 0%N []); (Variant "Some"%string [(Field None 185%N None [])] 1%N [])]) []).
Definition md_t185 : ty := 
 (Ty [] [] (TTuple [6%N; 6%N; 4%N]) []).
Definition md_t186 : ty := 
 (Ty ["Option"%string] [("T"%string,(Some 187%N))] (TVariant [(Variant "None"%string [] 0%N []); (Variant "Some"%string [(Field None 187%N None [])] 1%N [])]) []).
Definition md_t187 : ty := 
 (Ty ["polkadot_runtime_common"%string; "claims"%string; "StatementKind"%string] [] (TVariant [(Variant "Regular"%string [] 0%N []); (Variant "Saft"%string [] 1%N [])]) []).
Definition md_t188 : ty := 
 (Ty ["pallet_vesting"%string; "pallet"%string; "Call"%string] [("T"%string,None)] (TVariant [(Variant "vest"%string [] 0%N []); (Variant "vest_other"%string [(Field (Some "target"%string) 113%N (Some "AccountIdLookupOf<T>"%string) [])] 1%N []); (Variant "vested_transfer"%string [(Field (Some "target"%string) 113%N (Some "AccountIdLookupOf<T>"%string) []); (Field (Some "schedule"%string) 189%N (Some "VestingInfo<BalanceOf<T>, BlockNumberFor<T>>"%string) [])] 2%N []); (Variant "force_vested_transfer"%string [(Field (Some "source"%string) 113%N (Some "AccountIdLookupOf<T>"%string) []); (Field (Some "target"%string) 113%N (Some "AccountIdLookupOf<T>"%string) []); (Field (Some "schedule"%string) 189%N (Some "VestingInfo<BalanceOf<T>, BlockNumberFor<T>>"%string) [])] 3%N []); (Variant "merge_schedules"%string [(Field (Some "schedule1_index"%string) 4%N (Some "u32"%string) []); (Field (Some "schedule2_index"%string) 4%N (Some "u32"%string) [])] 4%N []); (Variant "force_remove_vesting_schedule"%string [(Field (Some "target"%string) 113%N (Some "<T::Lookup as StaticLookup>::Source"%string) []); (Field (Some "schedule_index"%string) 4%N (Some "u32"%string) [])] 5%N [])]) []).
Definition md_t189 : ty := 
 (Ty ["pallet_vesting"%string; "vesting_info"%string; "VestingInfo"%string] [("Balance"%string,(Some 6%N)); ("BlockNumber"%string,(Some 4%N))] (TComposite [(Field (Some "locked"%string) 6%N (Some "Balance"%string) []); (Field (Some "per_block"%string) 6%N (Some "Balance"%string) []); (Field (Some "starting_block"%string) 4%N (Some "BlockNumber"%string) [])]) []).
Definition md_t190 : ty := 
 (Ty ["pallet_utility"%string; "pallet"%string; "Call"%string] [("T"%string,None)] (TVariant [(Variant "batch"%string [(Field (Some "calls"%string) 191%N (Some "Vec<<T as Config>::RuntimeCall>"%string) [])] 0%N []); (Variant "as_derivative"%string [(Field (Some "index"%string) 91%N (Some "u16"%string) []); (Field (Some "call"%string) 93%N (Some "Box<<T as Config>::RuntimeCall>"%string) [])] 1%N []); (Variant "batch_all"%string [(Field (Some "calls"%string) 191%N (Some "Vec<<T as Config>::RuntimeCall>"%string) [])] 2%N []); (Variant "dispatch_as"%string [(Field (Some "as_origin"%string) 159%N (Some "Box<T::PalletsOrigin>"%string) []); (Field (Some "call"%string) 93%N (Some "Box<<T as Config>::RuntimeCall>"%string) [])] 3%N []); (Variant "force_batch"%string [(Field (Some "calls"%string) 191%N (Some "Vec<<T as Config>::RuntimeCall>"%string) [])] 4%N []); (Variant "with_weight"%string [(Field (Some "call"%string) 93%N (Some "Box<<T as Config>::RuntimeCall>"%string) []); (Field (Some "weight"%string) 10%N (Some "Weight"%string) [])] 5%N [])]) []).
Definition md_t191 : ty := 
 (Ty [] [] (TSequence 93%N) []).
Definition md_t192 : ty := 
 (Ty ["pallet_proxy"%string; "pallet"%string; "Call"%string] [("T"%string,None)] (TVariant [(Variant "proxy"%string [(Field (Some "real"%string) 113%N (Some "AccountIdLookupOf<T>"%string) []); (Field (Some "force_proxy_type"%string) 193%N (Some "Option<T::ProxyType>"%string) []); (Field (Some "call"%string) 93%N (Some "Box<<T as Config>::RuntimeCall>"%string) [])] 0%N []); (Variant "add_proxy"%string [(Field (Some "delegate"%string) 113%N (Some "AccountIdLookupOf<T>"%string) []); (Field (Some "proxy_type"%string) 194%N (Some "T::ProxyType"%string) []); (Field (Some "delay"%string) 4%N (Some "BlockNumberFor<T>"%string) [])] 1%N []); (Variant "remove_proxy"%string [(Field (Some "delegate"%string) 113%N (Some "AccountIdLookupOf<T>"%string) []); (Field (Some "proxy_type"%string) 194%N (Some "T::ProxyType"%string) []); (Field (Some "delay"%string) 4%N (Some "BlockNumberFor<T>"%string) [])] 2%N []); (Variant "remove_proxies"%string [] 3%N []); (Variant "create_pure"%string [(Field (Some "proxy_type"%string) 194%N (Some "T::ProxyType"%string) []); (Field (Some "delay"%string) 4%N (Some "BlockNumberFor<T>"%string) []); (Field (Some "index"%string) 91%N (Some "u16"%string) [])] 4%N []); (Variant "kill_pure"%string [(Field (Some "spawner"%string) 113%N (Some "AccountIdLookupOf<T>"%string) []); (Field (Some "proxy_type"%string) 194%N (Some "T::ProxyType"%string) []); (Field (Some "index"%string) 91%N (Some "u16"%string) []); (Field (Some "height"%string) 59%N (Some "BlockNumberFor<T>"%string) []); (Field (Some "ext_index"%string) 59%N (Some "u32"%string) [])] 5%N []); (Variant "announce"%string [(Field (Some "real"%string) 113%N (Some "AccountIdLookupOf<T>"%string) []); (Field (Some "call_hash"%string) 13%N (Some "CallHashOf<T>"%string) [])] 6%N []); (Variant "remove_announcement"%string [(Field (Some "real"%string) 113%N (Some "AccountIdLookupOf<T>"%string) []); (Field (Some "call_hash"%string) 13%N (Some "CallHashOf<T>"%string) [])] 7%N []); (Variant "reject_announcement"%string [(Field (Some "delegate"%string) 113%N (Some "AccountIdLookupOf<T>"%string) []); (Field (Some "call_hash"%string) 13%N (Some "CallHashOf<T>"%string) [])] 8%N []); (Variant "proxy_announced"%string [(Field (Some "delegate"%string) 113%N (Some "AccountIdLookupOf<T>"%string) []); (Field (Some "real"%string) 113%N (Some "AccountIdLookupOf<T>"%string) []); (Field (Some "force_proxy_type"%string) 193%N (Some "Option<T::ProxyType>"%string) []); (Field (Some "call"%string) 93%N (Some "Box<<T as Config>::RuntimeCall>"%string) [])] 9%N [])]) []).
Definition md_t193 : ty := 
 (Ty ["Option"%string] [("T"%string,(Some 194%N))] (TVariant [(Variant "None"%string [] 0%N []); (Variant "Some"%string [(Field None 194%N None [])] 1%N [])]) []).
Definition md_t194 : ty := 
 (Ty ["polkadot_runtime"%string; "ProxyType"%string] [] (TVariant [(Variant "Any"%string [] 0%N []); (Variant "NonTransfer"%string [] 1%N []); (Variant "Governance"%string [] 2%N []); (Variant "Staking"%string [] 3%N []); (Variant "CancelProxy"%string [] 6%N []); (Variant "Auction"%string [] 7%N []); (Variant "NominationPools"%string [] 8%N [])]) []).
Definition md_t195 : ty := 
 (Ty ["pallet_multisig"%string; "pallet"%string; "Call"%string] [("T"%string,None)] (TVariant [(Variant "as_multi_threshold_1"%string [(Field (Some "other_signatories"%string) 116%N (Some "Vec<T::AccountId>"%string) []); (Field (Some "call"%string) 93%N (Some "Box<<T as Config>::RuntimeCall>"%string) [])] 0%N []); (Variant "as_multi"%string [(Field (Some "threshold"%string) 91%N (Some "u16"%string) []); (Field (Some "other_signatories"%string) 116%N (Some "Vec<T::AccountId>"%string) []); (Field (Some "maybe_timepoint"%string) 196%N (Some "Option<Timepoint<BlockNumberFor<T>>>"%string) []); (Field (Some "call"%string) 93%N (Some "Box<<T as Config>::RuntimeCall>"%string) []); (Field (Some "max_weight"%string) 10%N (Some "Weight"%string) [])] 1%N []); (Variant "approve_as_multi"%string [(Field (Some "threshold"%string) 91%N (Some "u16"%string) []); (Field (Some "other_signatories"%string) 116%N (Some "Vec<T::AccountId>"%string) []); (Field (Some "maybe_timepoint"%string) 196%N (Some "Option<Timepoint<BlockNumberFor<T>>>"%string) []); (Field (Some "call_hash"%string) 1%N (Some "[u8; 32]"%string) []); (Field (Some "max_weight"%string) 10%N (Some "Weight"%string) [])] 2%N []); (Variant "cancel_as_multi"%string [(Field (Some "threshold"%string) 91%N (Some "u16"%string) []); (Field (Some "other_signatories"%string) 116%N (Some "Vec<T::AccountId>"%string) []); (Field (Some "timepoint"%string) 197%N (Some "Timepoint<BlockNumberFor<T>>"%string) []); (Field (Some "call_hash"%string) 1%N (Some "[u8; 32]"%string) [])] 3%N [])]) []).
Definition md_t196 : ty := 
 (Ty ["Option"%string] [("T"%string,(Some 197%N))] (TVariant [(Variant "None"%string [] 0%N []); (Variant "Some"%string [(Field None 197%N None [])] 1%N [])]) []).
Definition md_t197 : ty := 
 (Ty ["pallet_multisig"%string; "Timepoint"%string] [("BlockNumber"%string,(Some 4%N))] (TComposite [(Field (Some "height"%string) 4%N (Some "BlockNumber"%string) []); (Field (Some "index"%string) 4%N (Some "u32"%string) [])]) []).
Definition md_t198 : ty := 
 (Ty ["pallet_bounties"%string; "pallet"%string; "Call"%string] [("T"%string,None); ("I"%string,None)] (TVariant [(Variant "propose_bounty"%string [(Field (Some "value"%string) 63%N (Some "BalanceOf<T, I>"%string) []); (Field (Some "description"%string) 14%N (Some "Vec<u8>"%string) [])] 0%N []); (Variant "approve_bounty"%string [(Field (Some "bounty_id"%string) 59%N (Some "BountyIndex"%string) [])] 1%N []); (Variant "propose_curator"%string [(Field (Some "bounty_id"%string) 59%N (Some "BountyIndex"%string) []); (Field (Some "curator"%string) 113%N (Some "AccountIdLookupOf<T>"%string) []); (Field (Some "fee"%string) 63%N (Some "BalanceOf<T, I>"%string) [])] 2%N []); (Variant "unassign_curator"%string [(Field (Some "bounty_id"%string) 59%N (Some "BountyIndex"%string) [])] 3%N []); (Variant "accept_curator"%string [(Field (Some "bounty_id"%string) 59%N (Some "BountyIndex"%string) [])] 4%N []); (Variant "award_bounty"%string [(Field (Some "bounty_id"%string) 59%N (Some "BountyIndex"%string) []); (Field (Some "beneficiary"%string) 113%N (Some "AccountIdLookupOf<T>"%string) [])] 5%N []); (Variant "claim_bounty"%string [(Field (Some "bounty_id"%string) 59%N (Some "BountyIndex"%string) [])] 6%N []); (Variant "close_bounty"%string [(Field (Some "bounty_id"%string) 59%N (Some "BountyIndex"%string) [])] 7%N []); (Variant "extend_bounty_expiry"%string [(Field (Some "bounty_id"%string) 59%N (Some "BountyIndex"%string) []); (Field (Some "remark"%string) 14%N (Some "Vec<u8>"%string) [])] 8%N [])]) []).
Definition md_t199 : ty := 
 (Ty ["pallet_child_bounties"%string; "pallet"%string; "Call"%string] [("T"%string,None)] (TVariant [(Variant "add_child_bounty"%string [(Field (Some "parent_bounty_id"%string) 59%N (Some "BountyIndex"%string) []); (Field (Some "value"%string) 63%N (Some "BalanceOf<T>"%string) []); (Field (Some "description"%string) 14%N (Some "Vec<u8>"%string) [])] 0%N []); (Variant "propose_curator"%string [(Field (Some "parent_bounty_id"%string) 59%N (Some "BountyIndex"%string) []); (Field (Some "child_bounty_id"%string) 59%N (Some "BountyIndex"%string) []); (Field (Some "curator"%string) 113%N (Some "AccountIdLookupOf<T>"%string) []); (Field (Some "fee"%string) 63%N (Some "BalanceOf<T>"%string) [])] 1%N []); (Variant "accept_curator"%string [(Field (Some "parent_bounty_id"%string) 59%N (Some "BountyIndex"%string) []); (Field (Some "child_bounty_id"%string) 59%N (Some "BountyIndex"%string) [])] 2%N []); (Variant "unassign_curator"%string [(Field (Some "parent_bounty_id"%string) 59%N (Some "BountyIndex"%string) []); (Field (Some "child_bounty_id"%string) 59%N (Some "BountyIndex"%string) [])] 3%N []); (Variant "award_child_bounty"%string [(Field (Some "parent_bounty_id"%string) 59%N (Some "BountyIndex"%string) []); (Field (Some "child_bounty_id"%string) 59%N (Some "BountyIndex"%string) []); (Field (Some "beneficiary"%string) 113%N (Some "AccountIdLookupOf<T>"%string) [])] 4%N []); (Variant "claim_child_bounty"%string [(Field (Some "parent_bounty_id"%string) 59%N (Some "BountyIndex"%string) []); (Field (Some "child_bounty_id"%string) 59%N (Some "BountyIndex"%string) [])] 5%N []); (Variant "close_child_bounty"%string [(Field (Some "parent_bounty_id"%string) 59%N (Some "BountyIndex"%string) []); (Field (Some "child_bounty_id"%string) 59%N (Some "BountyIndex"%string) [])] 6%N [])]) []).
Definition md_t200 : ty := 
 (Ty ["pallet_election_provider_multi_phase"%string; "pallet"%string; "Call"%string] [("T"%string,None)] (TVariant [(Variant "submit_unsigned"%string [(Field (Some "raw_solution"%string) 201%N (Some "Box<RawSolution<SolutionOf<T::MinerConfig>>>"%string) []); (Field (Some "witness"%string) 254%N (Some "SolutionOrSnapshotSize"%string) [])] 0%N []); (Variant "set_minimum_untrusted_score"%string [(Field (Some "maybe_next_score"%string) 255%N (Some "Option<ElectionScore>"%string) [])] 1%N []); (Variant "set_emergency_election_result"%string [(Field (Some "supports"%string) 256%N (Some "Supports<T::AccountId>"%string) [])] 2%N []); (Variant "submit"%string [(Field (Some "raw_solution"%string) 201%N (Some "Box<RawSolution<SolutionOf<T::MinerConfig>>>"%string) [])] 3%N []); (Variant "governance_fallback"%string [(Field (Some "maybe_max_voters"%string) 152%N (Some "Option<u32>"%string) []); (Field (Some "maybe_max_targets"%string) 152%N (Some "Option<u32>"%string) [])] 4%N [])]) []).
Definition md_t201 : ty := 
 (Ty ["pallet_election_provider_multi_phase"%string; "RawSolution"%string] [("S"%string,(Some 202%N))] (TComposite [(Field (Some "solution"%string) 202%N (Some "S"%string) []); (Field (Some "score"%string) 253%N (Some "ElectionScore"%string) []); (Field (Some "round"%string) 4%N (Some "u32"%string) [])]) []).
Definition md_t202 : ty := 
 (Ty ["polkadot_runtime"%string; "NposCompactSolution16"%string] [] (TComposite [(Field (Some "votes1"%string) 203%N None []); (Field (Some "votes2"%string) 206%N None []); (Field (Some "votes3"%string) 211%N None []); (Field (Some "votes4"%string) 214%N None []); (Field (Some "votes5"%string) 217%N None []); (Field (Some "votes6"%string) 220%N None []); (Field (Some "votes7"%string) 223%N None []); (Field (Some "votes8"%string) 226%N None []); (Field (Some "votes9"%string) 229%N None []); (Field (Some "votes10"%string) 232%N None []); (Field (Some "votes11"%string) 235%N None []); (Field (Some "votes12"%string) 238%N None []); (Field (Some "votes13"%string) 241%N None []); (Field (Some "votes14"%string) 244%N None []); (Field (Some "votes15"%string) 247%N None []); (Field (Some "votes16"%string) 250%N None [])]) []).
Definition md_t203 : ty := 
 (Ty [] [] (TSequence 204%N) []).
Definition md_t204 : ty := 
 (Ty [] [] (TTuple [59%N; 205%N]) []).
Definition md_t205 : ty := 
 (Ty [] [] (TCompact 91%N) []).
Definition md_t206 : ty := 
 (Ty [] [] (TSequence 207%N) []).
Definition md_t207 : ty := 
 (Ty [] [] (TTuple [59%N; 208%N; 205%N]) []).
Definition md_t208 : ty := 
 (Ty [] [] (TTuple [205%N; 209%N]) []).
Definition md_t209 : ty := 
 (Ty [] [] (TCompact 210%N) []).
Definition md_t210 : ty := 
 (Ty ["sp_arithmetic"%string; "per_things"%string; "PerU16"%string] [] (TComposite [(Field None 91%N (Some "u16"%string) [])]) []).
Definition md_t211 : ty := 
 (Ty [] [] (TSequence 212%N) []).
Definition md_t212 : ty := 
 (Ty [] [] (TTuple [59%N; 213%N; 205%N]) []).
Definition md_t213 : ty := 
 (Ty [] [] (TArray 2%N 208%N) []).
Definition md_t214 : ty := 
 (Ty [] [] (TSequence 215%N) []).
Definition md_t215 : ty := 
 (Ty [] [] (TTuple [59%N; 216%N; 205%N]) []).
Definition md_t216 : ty := 
 (Ty [] [] (TArray 3%N 208%N) []).
Definition md_t217 : ty := 
 (Ty [] [] (TSequence 218%N) []).
Definition md_t218 : ty := 
 (Ty [] [] (TTuple [59%N; 219%N; 205%N]) []).
Definition md_t219 : ty := 
 (Ty [] [] (TArray 4%N 208%N) []).
Definition md_t220 : ty := 
 (Ty [] [] (TSequence 221%N) []).
Definition md_t221 : ty := 
 (Ty [] [] (TTuple [59%N; 222%N; 205%N]) []).
Definition md_t222 : ty := 
 (Ty [] [] (TArray 5%N 208%N) []).
Definition md_t223 : ty := 
 (Ty [] [] (TSequence 224%N) []).
Definition md_t224 : ty := 
 (Ty [] [] (TTuple [59%N; 225%N; 205%N]) []).
Definition md_t225 : ty := 
 (Ty [] [] (TArray 6%N 208%N) []).
Definition md_t226 : ty := 
 (Ty [] [] (TSequence 227%N) []).
Definition md_t227 : ty := 
 (Ty [] [] (TTuple [59%N; 228%N; 205%N]) []).
Definition md_t228 : ty := 
 (Ty [] [] (TArray 7%N 208%N) []).
Definition md_t229 : ty := 
 (Ty [] [] (TSequence 230%N) []).
Definition md_t230 : ty := 
 (Ty [] [] (TTuple [59%N; 231%N; 205%N]) []).
Definition md_t231 : ty := 
 (Ty [] [] (TArray 8%N 208%N) []).
Definition md_t232 : ty := 
 (Ty [] [] (TSequence 233%N) []).
Definition md_t233 : ty := 
 (Ty [] [] (TTuple [59%N; 234%N; 205%N]) []).
Definition md_t234 : ty := 
 (Ty [] [] (TArray 9%N 208%N) []).
Definition md_t235 : ty := 
 (Ty [] [] (TSequence 236%N) []).
Definition md_t236 : ty := 
 (Ty [] [] (TTuple [59%N; 237%N; 205%N]) []).
Definition md_t237 : ty := 
 (Ty [] [] (TArray 10%N 208%N) []).
Definition md_t238 : ty := 
 (Ty [] [] (TSequence 239%N) []).
Definition md_t239 : ty := 
 (Ty [] [] (TTuple [59%N; 240%N; 205%N]) []).
Definition md_t240 : ty := 
 (Ty [] [] (TArray 11%N 208%N) []).
Definition md_t241 : ty := 
 (Ty [] [] (TSequence 242%N) []).
Definition md_t242 : ty := 
 (Ty [] [] (TTuple [59%N; 243%N; 205%N]) []).
Definition md_t243 : ty := 
 (Ty [] [] (TArray 12%N 208%N) []).
Definition md_t244 : ty := 
 (Ty [] [] (TSequence 245%N) []).
Definition md_t245 : ty := 
 (Ty [] [] (TTuple [59%N; 246%N; 205%N]) []).
Definition md_t246 : ty := 
 (Ty [] [] (TArray 13%N 208%N) []).
Definition md_t247 : ty := 
 (Ty [] [] (TSequence 248%N) []).
Definition md_t248 : ty := 
 (Ty [] [] (TTuple [59%N; 249%N; 205%N]) []).
Definition md_t249 : ty := 
 (Ty [] [] (TArray 14%N 208%N) []).
Definition md_t250 : ty := 
 (Ty [] [] (TSequence 251%N) []).
Definition md_t251 : ty := 
 (Ty [] [] (TTuple [59%N; 252%N; 205%N]) []).
Definition md_t252 : ty := 
 (Ty [] [] (TArray 15%N 208%N) []).
Definition md_t253 : ty := 
 (Ty ["sp_npos_elections"%string; "ElectionScore"%string] [] (TComposite [(Field (Some "minimal_stake"%string) 6%N (Some "ExtendedBalance"%string) []); (Field (Some "sum_stake"%string) 6%N (Some "ExtendedBalance"%string) []); (Field (Some "sum_stake_squared"%string) 6%N (Some "ExtendedBalance"%string) [])]) []).
Definition md_t254 : ty := 
 (Ty ["pallet_election_provider_multi_phase"%string; "SolutionOrSnapshotSize"%string] [] (TComposite [(Field (Some "voters"%string) 59%N (Some "u32"%string) []); (Field (Some "targets"%string) 59%N (Some "u32"%string) [])]) []).
Definition md_t255 : ty := 
 (Ty ["Option"%string] [("T"%string,(Some 253%N))] (TVariant [(Variant "None"%string [] 0%N []); (Variant "Some"%string [(Field None 253%N None [])] 1%N [])]) []).
Definition md_t256 : ty := 
 (Ty [] [] (TSequence 257%N) []).
Definition md_t257 : ty := 
 (Ty [] [] (TTuple [0%N; 258%N]) []).
Definition md_t258 : ty := 
 (Ty ["sp_npos_elections"%string; "Support"%string] [("AccountId"%string,(Some 0%N))] (TComposite [(Field (Some "total"%string) 6%N (Some "ExtendedBalance"%string) []); (Field (Some "voters"%string) 259%N (Some "Vec<(AccountId, ExtendedBalance)>"%string) [])]) []).
Definition md_t259 : ty := 
 (Ty [] [] (TSequence 260%N) []).
Definition md_t260 : ty := 
 (Ty [] [] (TTuple [0%N; 6%N]) []).
Definition md_t261 : ty := 
 (Ty ["pallet_bags_list"%string; "pallet"%string; "Call"%string] [("T"%string,None); ("I"%string,None)] (TVariant [(Variant "rebag"%string [(Field (Some "dislocated"%string) 113%N (Some "AccountIdLookupOf<T>"%string) [])] 0%N []); (Variant "put_in_front_of"%string [(Field (Some "lighter"%string) 113%N (Some "AccountIdLookupOf<T>"%string) [])] 1%N []); (Variant "put_in_front_of_other"%string [(Field (Some "heavier"%string) 113%N (Some "AccountIdLookupOf<T>"%string) []); (Field (Some "lighter"%string) 113%N (Some "AccountIdLookupOf<T>"%string) [])] 2%N [])]) []).
Definition md_t262 : ty := 
 (Ty ["pallet_nomination_pools"%string; "pallet"%string; "Call"%string] [("T"%string,None)] (TVariant [(Variant "join"%string [(Field (Some "amount"%string) 63%N (Some "BalanceOf<T>"%string) []); (Field (Some "pool_id"%string) 4%N (Some "PoolId"%string) [])] 0%N []); (Variant "bond_extra"%string [(Field (Some "extra"%string) 263%N (Some "BondExtra<BalanceOf<T>>"%string) [])] 1%N []); (Variant "claim_payout"%string [] 2%N []); (Variant "unbond"%string [(Field (Some "member_account"%string) 113%N (Some "AccountIdLookupOf<T>"%string) []); (Field (Some "unbonding_points"%string) 63%N (Some "BalanceOf<T>"%string) [])] 3%N []); (Variant "pool_withdraw_unbonded"%string [(Field (Some "pool_id"%string) 4%N (Some "PoolId"%string) []); (Field (Some "num_slashing_spans"%string) 4%N (Some "u32"%string) [])] 4%N []); (Variant "withdraw_unbonded"%string [(Field (Some "member_account"%string) 113%N (Some "AccountIdLookupOf<T>"%string) []); (Field (Some "num_slashing_spans"%string) 4%N (Some "u32"%string) [])] 5%N []); (Variant "create"%string [(Field (Some "amount"%string) 63%N (Some "BalanceOf<T>"%string) []); (Field (Some "root"%string) 113%N (Some "AccountIdLookupOf<T>"%string) []); (Field (Some "nominator"%string) 113%N (Some "AccountIdLookupOf<T>"%string) []); (Field (Some "bouncer"%string) 113%N (Some "AccountIdLookupOf<T>"%string) [])] 6%N []); (Variant "create_with_pool_id"%string [(Field (Some "amount"%string) 63%N (Some "BalanceOf<T>"%string) []); (Field (Some "root"%string) 113%N (Some "AccountIdLookupOf<T>"%string) []); (Field (Some "nominator"%string) 113%N (Some "AccountIdLookupOf<T>"%string) []); (Field (Some "bouncer"%string) 113%N (Some "AccountIdLookupOf<T>"%string) []); (Field (Some "pool_id"%string) 4%N (Some "PoolId"%string) [])] 7%N []); (Variant "nominate"%string [(Field (Some "pool_id"%string) 4%N (Some "PoolId"%string) []); (Field (Some "validators"%string) 116%N (Some "Vec<T::AccountId>"%string) [])] 8%N []); (Variant "set_state"%string [(Field (Some "pool_id"%string) 4%N (Some "PoolId"%string) []); (Field (Some "state"%string) 264%N (Some "PoolState"%string) [])] 9%N []); (Variant "set_metadata"%string [(Field (Some "pool_id"%string) 4%N (Some "PoolId"%string) []); (Field (Some "metadata"%string) 14%N (Some "Vec<u8>"%string) [])] 10%N []); (Variant "set_configs"%string [(Field (Some "min_join_bond"%string) 265%N (Some "ConfigOp<BalanceOf<T>>"%string) []); (Field (Some "min_create_bond"%string) 265%N (Some "ConfigOp<BalanceOf<T>>"%string) []); (Field (Some "max_pools"%string) 266%N (Some "ConfigOp<u32>"%string) []); (Field (Some "max_members"%string) 266%N (Some "ConfigOp<u32>"%string) []); (Field (Some "max_members_per_pool"%string) 266%N (Some "ConfigOp<u32>"%string) []); (Field (Some "global_max_commission"%string) 267%N (Some "ConfigOp<Perbill>"%string) [])] 11%N []); (Variant "update_roles"%string [(Field (Some "pool_id"%string) 4%N (Some "PoolId"%string) []); (Field (Some "new_root"%string) 268%N (Some "ConfigOp<T::AccountId>"%string) []); (Field (Some "new_nominator"%string) 268%N (Some "ConfigOp<T::AccountId>"%string) []); (Field (Some "new_bouncer"%string) 268%N (Some "ConfigOp<T::AccountId>"%string) [])] 12%N []); (Variant "chill"%string [(Field (Some "pool_id"%string) 4%N (Some "PoolId"%string) [])] 13%N []); (Variant "bond_extra_other"%string [(Field (Some "member"%string) 113%N (Some "AccountIdLookupOf<T>"%string) []); (Field (Some "extra"%string) 263%N (Some "BondExtra<BalanceOf<T>>"%string) [])] 14%N []); (Variant "set_claim_permission"%string [(Field (Some "permission"%string) 269%N (Some "ClaimPermission"%string) [])] 15%N []); (Variant "claim_payout_other"%string [(Field (Some "other"%string) 0%N (Some "T::AccountId"%string) [])] 16%N []); (Variant "set_commission"%string [(Field (Some "pool_id"%string) 4%N (Some "PoolId"%string) []); (Field (Some "new_commission"%string) 270%N (Some "Option<(Perbill, T::AccountId)>"%string) [])] 17%N []); (Variant "set_commission_max"%string [(Field (Some "pool_id"%string) 4%N (Some "PoolId"%string) []); (Field (Some "max_commission"%string) 43%N (Some "Perbill"%string) [])] 18%N []); (Variant "set_commission_change_rate"%string [(Field (Some "pool_id"%string) 4%N (Some "PoolId"%string) []); (Field (Some "change_rate"%string) 272%N (Some "CommissionChangeRate<BlockNumberFor<T>>"%string) [])] 19%N []); (Variant "claim_commission"%string [(Field (Some "pool_id"%string) 4%N (Some "PoolId"%string) [])] 20%N []); (Variant "adjust_pool_deposit"%string [(Field (Some "pool_id"%string) 4%N (Some "PoolId"%string) [])] 21%N []); (Variant "set_commission_claim_permission"%string [(Field (Some "pool_id"%string) 4%N (Some "PoolId"%string) []); (Field (Some "permission"%string) 273%N (Some "Option<CommissionClaimPermission<T::AccountId>>"%string) [])] 22%N []); (Variant "apply_slash"%string [(Field (Some "member_account"%string) 113%N (Some "AccountIdLookupOf<T>"%string) [])] 23%N []); (Variant "migrate_delegation"%string [(Field (Some "member_account"%string) 113%N (Some "AccountIdLookupOf<T>"%string) [])] 24%N []); (Variant "migrate_pool_to_delegate_stake"%string [(Field (Some "pool_id"%string) 4%N (Some "PoolId"%string) [])] 25%N [])]) []).
Definition md_t263 : ty := 
 (Ty ["pallet_nomination_pools"%string; "BondExtra"%string] [("Balance"%string,(Some 6%N))] (TVariant [(Variant "FreeBalance"%string [(Field None 6%N (Some "Balance"%string) [])] 0%N []); (Variant "Rewards"%string [] 1%N [])]) []).
Definition md_t264 : ty := 
 (Ty ["pallet_nomination_pools"%string; "PoolState"%string] [] (TVariant [(Variant "Open"%string [] 0%N []); (Variant "Blocked"%string [] 1%N []); (Variant "Destroying"%string [] 2%N [])]) []).
Definition md_t265 : ty := 
 (Ty ["pallet_nomination_pools"%string; "ConfigOp"%string] [("T"%string,(Some 6%N))] (TVariant [(Variant "Noop"%string [] 0%N []); (Variant "Set"%string [(Field None 6%N (Some "T"%string) [])] 1%N []); (Variant "Remove"%string [] 2%N [])]) []).
Definition md_t266 : ty := 
 (Ty ["pallet_nomination_pools"%string; "ConfigOp"%string] [("T"%string,(Some 4%N))] (TVariant [(Variant "Noop"%string [] 0%N []); (Variant "Set"%string [(Field None 4%N (Some "T"%string) [])] 1%N []); (Variant "Remove"%string [] 2%N [])]) []).
Definition md_t267 : ty := 
 (Ty ["pallet_nomination_pools"%string; "ConfigOp"%string] [("T"%string,(Some 43%N))] (TVariant [(Variant "Noop"%string [] 0%N []); (Variant "Set"%string [(Field None 43%N (Some "T"%string) [])] 1%N []); (Variant "Remove"%string [] 2%N [])]) []).
Definition md_t268 : ty := 
 (Ty ["pallet_nomination_pools"%string; "ConfigOp"%string] [("T"%string,(Some 0%N))] (TVariant [(Variant "Noop"%string [] 0%N []); (Variant "Set"%string [(Field None 0%N (Some "T"%string) [])] 1%N []); (Variant "Remove"%string [] 2%N [])]) []).
Definition md_t269 : ty := 
 (Ty ["pallet_nomination_pools"%string; "ClaimPermission"%string] [] (TVariant [(Variant "Permissioned"%string [] 0%N []); (Variant "PermissionlessCompound"%string [] 1%N []); (Variant "PermissionlessWithdraw"%string [] 2%N []); (Variant "PermissionlessAll"%string [] 3%N [])]) []).
Definition md_t270 : ty := 
 (Ty ["Option"%string] [("T"%string,(Some 271%N))] (TVariant [(Variant "None"%string [] 0%N []); (Variant "Some"%string [(Field None 271%N None [])] 1%N [])]) []).
Definition md_t271 : ty := 
 (Ty [] [] (TTuple [43%N; 0%N]) []).
Definition md_t272 : ty := 
 (Ty ["pallet_nomination_pools"%string; "CommissionChangeRate"%string] [("BlockNumber"%string,(Some 4%N))] (TComposite [(Field (Some "max_increase"%string) 43%N (Some "Perbill"%string) []); (Field (Some "min_delay"%string) 4%N (Some "BlockNumber"%string) [])]) []).
Definition md_t273 : ty := 
 (Ty ["Option"%string] [("T"%string,(Some 274%N))] (TVariant [(Variant "None"%string [] 0%N []); (Variant "Some"%string [(Field None 274%N None [])] 1%N [])]) []).
Definition md_t274 : ty := 
 (Ty ["pallet_nomination_pools"%string; "CommissionClaimPermission"%string] [("AccountId"%string,(Some 0%N))] (TVariant [(Variant "Permissionless"%string [] 0%N []); (Variant "Account"%string [(Field None 0%N (Some "AccountId"%string) [])] 1%N [])]) []).
Definition md_t275 : ty := 
 (Ty ["pallet_fast_unstake"%string; "pallet"%string; "Call"%string] [("T"%string,None)] (TVariant [(Variant "register_fast_unstake"%string [] 0%N []); (Variant "deregister"%string [] 1%N []); (Variant "control"%string [(Field (Some "eras_to_check"%string) 4%N (Some "EraIndex"%string) [])] 2%N [])]) []).
Definition md_t276 : ty := 
 (Ty ["polkadot_runtime_parachains"%string; "configuration"%string; "pallet"%string; "Call"%string] [("T"%string,None)] (TVariant [(Variant "set_validation_upgrade_cooldown"%string [(Field (Some "new"%string) 4%N (Some "BlockNumberFor<T>"%string) [])] 0%N []); (Variant "set_validation_upgrade_delay"%string [(Field (Some "new"%string) 4%N (Some "BlockNumberFor<T>"%string) [])] 1%N []); (Variant "set_code_retention_period"%string [(Field (Some "new"%string) 4%N (Some "BlockNumberFor<T>"%string) [])] 2%N []); (Variant "set_max_code_size"%string [(Field (Some "new"%string) 4%N (Some "u32"%string) [])] 3%N []); (Variant "set_max_pov_size"%string [(Field (Some "new"%string) 4%N (Some "u32"%string) [])] 4%N []); (Variant "set_max_head_data_size"%string [(Field (Some "new"%string) 4%N (Some "u32"%string) [])] 5%N []); (Variant "set_coretime_cores"%string [(Field (Some "new"%string) 4%N (Some "u32"%string) [])] 6%N []); (Variant "set_max_availability_timeouts"%string [(Field (Some "new"%string) 4%N (Some "u32"%string) [])] 7%N []); (Variant "set_group_rotation_frequency"%string [(Field (Some "new"%string) 4%N (Some "BlockNumberFor<T>"%string) [])] 8%N []); (Variant "set_paras_availability_period"%string [(Field (Some "new"%string) 4%N (Some "BlockNumberFor<T>"%string) [])] 9%N []); (Variant "set_scheduling_lookahead"%string [(Field (Some "new"%string) 4%N (Some "u32"%string) [])] 11%N []); (Variant "set_max_validators_per_core"%string [(Field (Some "new"%string) 152%N (Some "Option<u32>"%string) [])] 12%N []); (Variant "set_max_validators"%string [(Field (Some "new"%string) 152%N (Some "Option<u32>"%string) [])] 13%N []); (Variant "set_dispute_period"%string [(Field (Some "new"%string) 4%N (Some "SessionIndex"%string) [])] 14%N []); (Variant "set_dispute_post_conclusion_acceptance_period"%string [(Field (Some "new"%string) 4%N (Some "BlockNumberFor<T>"%string) [])] 15%N []); (Variant "set_no_show_slots"%string [(Field (Some "new"%string) 4%N (Some "u32"%string) [])] 18%N []); (Variant "set_n_delay_tranches"%string [(Field (Some "new"%string) 4%N (Some "u32"%string) [])] 19%N []); (Variant "set_zeroth_delay_tranche_width"%string [(Field (Some "new"%string) 4%N (Some "u32"%string) [])] 20%N []); (Variant "set_needed_approvals"%string [(Field (Some "new"%string) 4%N (Some "u32"%string) [])] 21%N []); (Variant "set_relay_vrf_modulo_samples"%string [(Field (Some "new"%string) 4%N (Some "u32"%string) [])] 22%N []); (Variant "set_max_upward_queue_count"%string [(Field (Some "new"%string) 4%N (Some "u32"%string) [])] 23%N []); (Variant "set_max_upward_queue_size"%string [(Field (Some "new"%string) 4%N (Some "u32"%string) [])] 24%N []); (Variant "set_max_downward_message_size"%string [(Field (Some "new"%string) 4%N (Some "u32"%string) [])] 25%N []); (Variant "set_max_upward_message_size"%string [(Field (Some "new"%string) 4%N (Some "u32"%string) [])] 27%N []); (Variant "set_max_upward_message_num_per_candidate"%string [(Field (Some "new"%string) 4%N (Some "u32"%string) [])] 28%N []); (Variant "set_hrmp_open_request_ttl"%string [(Field (Some "new"%string) 4%N (Some "u32"%string) [])] 29%N []); (Variant "set_hrmp_sender_deposit"%string [(Field (Some "new"%string) 6%N (Some "Balance"%string) [])] 30%N []); (Variant "set_hrmp_recipient_deposit"%string [(Field (Some "new"%string) 6%N (Some "Balance"%string) [])] 31%N []); (Variant "set_hrmp_channel_max_capacity"%string [(Field (Some "new"%string) 4%N (Some "u32"%string) [])] 32%N []); (Variant "set_hrmp_channel_max_total_size"%string [(Field (Some "new"%string) 4%N (Some "u32"%string) [])] 33%N []); (Variant "set_hrmp_max_parachain_inbound_channels"%string [(Field (Some "new"%string) 4%N (Some "u32"%string) [])] 34%N []); (Variant "set_hrmp_channel_max_message_size"%string [(Field (Some "new"%string) 4%N (Some "u32"%string) [])] 36%N []); (Variant "set_hrmp_max_parachain_outbound_channels"%string [(Field (Some "new"%string) 4%N (Some "u32"%string) [])] 37%N []); (Variant "set_hrmp_max_message_num_per_candidate"%string [(Field (Some "new"%string) 4%N (Some "u32"%string) [])] 39%N []); (Variant "set_pvf_voting_ttl"%string [(Field (Some "new"%string) 4%N (Some "SessionIndex"%string) [])] 42%N []); (Variant "set_minimum_validation_upgrade_delay"%string [(Field (Some "new"%string) 4%N (Some "BlockNumberFor<T>"%string) [])] 43%N []); (Variant "set_bypass_consistency_check"%string [(Field (Some "new"%string) 8%N (Some "bool"%string) [])] 44%N []); (Variant "set_async_backing_params"%string [(Field (Some "new"%string) 277%N (Some "AsyncBackingParams"%string) [])] 45%N []); (Variant "set_executor_params"%string [(Field (Some "new"%string) 278%N (Some "ExecutorParams"%string) [])] 46%N []); (Variant "set_on_demand_base_fee"%string [(Field (Some "new"%string) 6%N (Some "Balance"%string) [])] 47%N []); (Variant "set_on_demand_fee_variability"%string [(Field (Some "new"%string) 43%N (Some "Perbill"%string) [])] 48%N []); (Variant "set_on_demand_queue_max_size"%string [(Field (Some "new"%string) 4%N (Some "u32"%string) [])] 49%N []); (Variant "set_on_demand_target_queue_utilization"%string [(Field (Some "new"%string) 43%N (Some "Perbill"%string) [])] 50%N []); (Variant "set_on_demand_ttl"%string [(Field (Some "new"%string) 4%N (Some "BlockNumberFor<T>"%string) [])] 51%N []); (Variant "set_minimum_backing_votes"%string [(Field (Some "new"%string) 4%N (Some "u32"%string) [])] 52%N []); (Variant "set_node_feature"%string [(Field (Some "index"%string) 2%N (Some "u8"%string) []); (Field (Some "value"%string) 8%N (Some "bool"%string) [])] 53%N []); (Variant "set_approval_voting_params"%string [(Field (Some "new"%string) 283%N (Some "ApprovalVotingParams"%string) [])] 54%N []); (Variant "set_scheduler_params"%string [(Field (Some "new"%string) 284%N (Some "SchedulerParams<BlockNumberFor<T>>"%string) [])] 55%N [])]) []).
Definition md_t277 : ty := 
 (Ty ["polkadot_primitives"%string; "v7"%string; "async_backing"%string; "AsyncBackingParams"%string] [] (TComposite [(Field (Some "max_candidate_depth"%string) 4%N (Some "u32"%string) []); (Field (Some "allowed_ancestry_len"%string) 4%N (Some "u32"%string) [])]) []).
Definition md_t278 : ty := 
 (Ty ["polkadot_primitives"%string; "v7"%string; "executor_params"%string; "ExecutorParams"%string] [] (TComposite [(Field None 279%N (Some "Vec<ExecutorParam>"%string) [])]) []).
Definition md_t279 : ty := 
 (Ty [] [] (TSequence 280%N) []).
Definition md_t280 : ty := 
 (Ty ["polkadot_primitives"%string; "v7"%string; "executor_params"%string; "ExecutorParam"%string] [] (TVariant [(Variant "MaxMemoryPages"%string [(Field None 4%N (Some "u32"%string) [])] 1%N []); (Variant "StackLogicalMax"%string [(Field None 4%N (Some "u32"%string) [])] 2%N []); (Variant "StackNativeMax"%string [(Field None 4%N (Some "u32"%string) [])] 3%N []); (Variant "PrecheckingMaxMemory"%string [(Field None 12%N (Some "u64"%string) [])] 4%N []); (Variant "PvfPrepTimeout"%string [(Field None 281%N (Some "PvfPrepKind"%string) []); (Field None 12%N (Some "u64"%string) [])] 5%N []); (Variant "PvfExecTimeout"%string [(Field None 282%N (Some "PvfExecKind"%string) []); (Field None 12%N (Some "u64"%string) [])] 6%N []); (Variant "WasmExtBulkMemory"%string [] 7%N [])]) []).
Definition md_t281 : ty := 
 (Ty ["polkadot_primitives"%string; "v7"%string; "PvfPrepKind"%string] [] (TVariant [(Variant "Precheck"%string [] 0%N []); (Variant "Prepare"%string [] 1%N [])]) []).
Definition md_t282 : ty := 
 (Ty ["polkadot_primitives"%string; "v7"%string; "PvfExecKind"%string] [] (TVariant [(Variant "Backing"%string [] 0%N []); (Variant "Approval"%string [] 1%N [])]) []).
Definition md_t283 : ty := 
 (Ty ["polkadot_primitives"%string; "v7"%string; "ApprovalVotingParams"%string] [] (TComposite [(Field (Some "max_approval_coalesce_count"%string) 4%N (Some "u32"%string) [])]) []).
Definition md_t284 : ty := 
 (Ty ["polkadot_primitives"%string; "vstaging"%string; "SchedulerParams"%string] [("BlockNumber"%string,(Some 4%N))] (TComposite [(Field (Some "group_rotation_frequency"%string) 4%N (Some "BlockNumber"%string) []); (Field (Some "paras_availability_period"%string) 4%N (Some "BlockNumber"%string) []); (Field (Some "max_validators_per_core"%string) 152%N (Some "Option<u32>"%string) []); (Field (Some "lookahead"%string) 4%N (Some "u32"%string) []); (Field (Some "num_cores"%string) 4%N (Some "u32"%string) []); (Field (Some "max_availability_timeouts"%string) 4%N (Some "u32"%string) []); (Field (Some "on_demand_queue_max_size"%string) 4%N (Some "u32"%string) []); (Field (Some "on_demand_target_queue_utilization"%string) 43%N (Some "Perbill"%string) []); (Field (Some "on_demand_fee_variability"%string) 43%N (Some "Perbill"%string) []); (Field (Some "on_demand_base_fee"%string) 6%N (Some "Balance"%string) []); (Field (Some "ttl"%string) 4%N (Some "BlockNumber"%string) [])]) []).
Definition md_t285 : ty := 
 (Ty ["polkadot_runtime_parachains"%string; "shared"%string; "pallet"%string; "Call"%string] [("T"%string,None)] (TVariant []) []).
Definition md_t286 : ty := 
 (Ty ["polkadot_runtime_parachains"%string; "inclusion"%string; "pallet"%string; "Call"%string] [("T"%string,None)] (TVariant []) []).
Definition md_t287 : ty := 
 (Ty ["polkadot_runtime_parachains"%string; "paras_inherent"%string; "pallet"%string; "Call"%string] [("T"%string,None)] (TVariant [(Variant "enter"%string [(Field (Some "data"%string) 288%N (Some "ParachainsInherentData<HeaderFor<T>>"%string) [])] 0%N [])]) []).
Definition md_t288 : ty := 
 (Ty ["polkadot_primitives"%string; "v7"%string; "InherentData"%string] [("HDR"%string,(Some 104%N))] (TComposite [(Field (Some "bitfields"%string) 289%N (Some "UncheckedSignedAvailabilityBitfields"%string) []); (Field (Some "backed_candidates"%string) 296%N (Some "Vec<BackedCandidate<HDR::Hash>>"%string) []); (Field (Some "disputes"%string) 313%N (Some "MultiDisputeStatementSet"%string) []); (Field (Some "parent_header"%string) 104%N (Some "HDR"%string) [])]) []).
Definition md_t289 : ty := 
 (Ty [] [] (TSequence 290%N) []).
Definition md_t290 : ty := 
 (Ty ["polkadot_primitives"%string; "v7"%string; "signed"%string; "UncheckedSigned"%string] [("Payload"%string,(Some 291%N)); ("RealPayload"%string,(Some 291%N))] (TComposite [(Field (Some "payload"%string) 291%N (Some "Payload"%string) []); (Field (Some "validator_index"%string) 294%N (Some "ValidatorIndex"%string) []); (Field (Some "signature"%string) 295%N (Some "ValidatorSignature"%string) [])]) []).
Definition md_t291 : ty := 
 (Ty ["polkadot_primitives"%string; "v7"%string; "AvailabilityBitfield"%string] [] (TComposite [(Field None 292%N (Some "BitVec<u8, bitvec::order::Lsb0>"%string) [])]) []).
Definition md_t292 : ty := 
 (Ty [] [] (TBitSequence 2%N 293%N) []).
Definition md_t293 : ty := 
 (Ty ["bitvec"%string; "order"%string; "Lsb0"%string] [] (TComposite []) []).
Definition md_t294 : ty := 
 (Ty ["polkadot_primitives"%string; "v7"%string; "ValidatorIndex"%string] [] (TComposite [(Field None 4%N (Some "u32"%string) [])]) []).
Definition md_t295 : ty := 
 (Ty ["polkadot_primitives"%string; "v7"%string; "validator_app"%string; "Signature"%string] [] (TComposite [(Field None 146%N (Some "sr25519::Signature"%string) [])]) []).
Definition md_t296 : ty := 
 (Ty [] [] (TSequence 297%N) []).
Definition md_t297 : ty := 
 (Ty ["polkadot_primitives"%string; "v7"%string; "BackedCandidate"%string] [("H"%string,(Some 13%N))] (TComposite [(Field (Some "candidate"%string) 298%N (Some "CommittedCandidateReceipt<H>"%string) []); (Field (Some "validity_votes"%string) 311%N (Some "Vec<ValidityAttestation>"%string) []); (Field (Some "validator_indices"%string) 292%N (Some "BitVec<u8, bitvec::order::Lsb0>"%string) [])]) []).
Definition md_t298 : ty := 
 (Ty ["polkadot_primitives"%string; "v7"%string; "CommittedCandidateReceipt"%string] [("H"%string,(Some 13%N))] (TComposite [(Field (Some "descriptor"%string) 299%N (Some "CandidateDescriptor<H>"%string) []); (Field (Some "commitments"%string) 303%N (Some "CandidateCommitments"%string) [])]) []).
Definition md_t299 : ty := 
 (Ty ["polkadot_primitives"%string; "v7"%string; "CandidateDescriptor"%string] [("H"%string,(Some 13%N))] (TComposite [(Field (Some "para_id"%string) 163%N (Some "Id"%string) []); (Field (Some "relay_parent"%string) 13%N (Some "H"%string) []); (Field (Some "collator"%string) 300%N (Some "CollatorId"%string) []); (Field (Some "persisted_validation_data_hash"%string) 13%N (Some "Hash"%string) []); (Field (Some "pov_hash"%string) 13%N (Some "Hash"%string) []); (Field (Some "erasure_root"%string) 13%N (Some "Hash"%string) []); (Field (Some "signature"%string) 301%N (Some "CollatorSignature"%string) []); (Field (Some "para_head"%string) 13%N (Some "Hash"%string) []); (Field (Some "validation_code_hash"%string) 302%N (Some "ValidationCodeHash"%string) [])]) []).
Definition md_t300 : ty := 
 (Ty ["polkadot_primitives"%string; "v7"%string; "collator_app"%string; "Public"%string] [] (TComposite [(Field None 1%N (Some "sr25519::Public"%string) [])]) []).
Definition md_t301 : ty := 
 (Ty ["polkadot_primitives"%string; "v7"%string; "collator_app"%string; "Signature"%string] [] (TComposite [(Field None 146%N (Some "sr25519::Signature"%string) [])]) []).
Definition md_t302 : ty := 
 (Ty ["polkadot_parachain_primitives"%string; "primitives"%string; "ValidationCodeHash"%string] [] (TComposite [(Field None 13%N (Some "Hash"%string) [])]) []).
Definition md_t303 : ty := 
 (Ty ["polkadot_primitives"%string; "v7"%string; "CandidateCommitments"%string] [("N"%string,(Some 4%N))] (TComposite [(Field (Some "upward_messages"%string) 304%N (Some "UpwardMessages"%string) []); (Field (Some "horizontal_messages"%string) 305%N (Some "HorizontalMessages"%string) []); (Field (Some "new_validation_code"%string) 308%N (Some "Option<ValidationCode>"%string) []); (Field (Some "head_data"%string) 310%N (Some "HeadData"%string) []); (Field (Some "processed_downward_messages"%string) 4%N (Some "u32"%string) []); (Field (Some "hrmp_watermark"%string) 4%N (Some "N"%string) [])]) []).
Definition md_t304 : ty := 
 (Ty ["bounded_collections"%string; "bounded_vec"%string; "BoundedVec"%string] [("T"%string,(Some 14%N)); ("S"%string,None)] (TComposite [(Field None 97%N (Some "Vec<T>"%string) [])]) []).
Definition md_t305 : ty := 
 (Ty ["bounded_collections"%string; "bounded_vec"%string; "BoundedVec"%string] [("T"%string,(Some 306%N)); ("S"%string,None)] (TComposite [(Field None 307%N (Some "Vec<T>"%string) [])]) []).
Definition md_t306 : ty := 
 (Ty ["polkadot_core_primitives"%string; "OutboundHrmpMessage"%string] [("Id"%string,(Some 163%N))] (TComposite [(Field (Some "recipient"%string) 163%N (Some "Id"%string) []); (Field (Some "data"%string) 14%N (Some "sp_std::vec::Vec<u8>"%string) [])]) []).
Definition md_t307 : ty := 
 (Ty [] [] (TSequence 306%N) []).
Definition md_t308 : ty := 
 (Ty ["Option"%string] [("T"%string,(Some 309%N))] (TVariant [(Variant "None"%string [] 0%N []); (Variant "Some"%string [(Field None 309%N None [])] 1%N [])]) []).
Definition md_t309 : ty := 
 (Ty ["polkadot_parachain_primitives"%string; "primitives"%string; "ValidationCode"%string] [] (TComposite [(Field None 14%N (Some "Vec<u8>"%string) [])]) []).
Definition md_t310 : ty := 
 (Ty ["polkadot_parachain_primitives"%string; "primitives"%string; "HeadData"%string] [] (TComposite [(Field None 14%N (Some "Vec<u8>"%string) [])]) []).
Definition md_t311 : ty := 
 (Ty [] [] (TSequence 312%N) []).
Definition md_t312 : ty := 
 (Ty ["polkadot_primitives"%string; "v7"%string; "ValidityAttestation"%string] [] (TVariant [(Variant "Implicit"%string [(Field None 295%N (Some "ValidatorSignature"%string) [])] 1%N []); (Variant "Explicit"%string [(Field None 295%N (Some "ValidatorSignature"%string) [])] 2%N [])]) []).
Definition md_t313 : ty := 
 (Ty [] [] (TSequence 314%N) []).
Definition md_t314 : ty := 
 (Ty ["polkadot_primitives"%string; "v7"%string; "DisputeStatementSet"%string] [] (TComposite [(Field (Some "candidate_hash"%string) 315%N (Some "CandidateHash"%string) []); (Field (Some "session"%string) 4%N (Some "SessionIndex"%string) []); (Field (Some "statements"%string) 316%N (Some "Vec<(DisputeStatement, ValidatorIndex, ValidatorSignature)>"%string) [])]) []).
Definition md_t315 : ty := 
 (Ty ["polkadot_core_primitives"%string; "CandidateHash"%string] [] (TComposite [(Field None 13%N (Some "Hash"%string) [])]) []).
Definition md_t316 : ty := 
 (Ty [] [] (TSequence 317%N) []).
Definition md_t317 : ty := 
 (Ty [] [] (TTuple [318%N; 294%N; 295%N]) []).
Definition md_t318 : ty := 
 (Ty ["polkadot_primitives"%string; "v7"%string; "DisputeStatement"%string] [] (TVariant [(Variant "Valid"%string [(Field None 319%N (Some "ValidDisputeStatementKind"%string) [])] 0%N []); (Variant "Invalid"%string [(Field None 321%N (Some "InvalidDisputeStatementKind"%string) [])] 1%N [])]) []).
Definition md_t319 : ty := 
 (Ty ["polkadot_primitives"%string; "v7"%string; "ValidDisputeStatementKind"%string] [] (TVariant [(Variant "Explicit"%string [] 0%N []); (Variant "BackingSeconded"%string [(Field None 13%N (Some "Hash"%string) [])] 1%N []); (Variant "BackingValid"%string [(Field None 13%N (Some "Hash"%string) [])] 2%N []); (Variant "ApprovalChecking"%string [] 3%N []); (Variant "ApprovalCheckingMultipleCandidates"%string [(Field None 320%N (Some "Vec<CandidateHash>"%string) [])] 4%N [])]) []).
Definition md_t320 : ty := 
 (Ty [] [] (TSequence 315%N) []).
Definition md_t321 : ty := 
 (Ty ["polkadot_primitives"%string; "v7"%string; "InvalidDisputeStatementKind"%string] [] (TVariant [(Variant "Explicit"%string [] 0%N [])]) []).
Definition md_t322 : ty := 
 (Ty ["polkadot_runtime_parachains"%string; "paras"%string; "pallet"%string; "Call"%string] [("T"%string,None)] (TVariant [(Variant "force_set_current_code"%string [(Field (Some "para"%string) 163%N (Some "ParaId"%string) []); (Field (Some "new_code"%string) 309%N (Some "ValidationCode"%string) [])] 0%N []); (Variant "force_set_current_head"%string [(Field (Some "para"%string) 163%N (Some "ParaId"%string) []); (Field (Some "new_head"%string) 310%N (Some "HeadData"%string) [])] 1%N []); (Variant "force_schedule_code_upgrade"%string [(Field (Some "para"%string) 163%N (Some "ParaId"%string) []); (Field (Some "new_code"%string) 309%N (Some "ValidationCode"%string) []); (Field (Some "relay_parent_number"%string) 4%N (Some "BlockNumberFor<T>"%string) [])] 2%N []); (Variant "force_note_new_head"%string [(Field (Some "para"%string) 163%N (Some "ParaId"%string) []); (Field (Some "new_head"%string) 310%N (Some "HeadData"%string) [])] 3%N []); (Variant "force_queue_action"%string [(Field (Some "para"%string) 163%N (Some "ParaId"%string) [])] 4%N []); (Variant "add_trusted_validation_code"%string [(Field (Some "validation_code"%string) 309%N (Some "ValidationCode"%string) [])] 5%N []); (Variant "poke_unused_validation_code"%string [(Field (Some "validation_code_hash"%string) 302%N (Some "ValidationCodeHash"%string) [])] 6%N []); (Variant "include_pvf_check_statement"%string [(Field (Some "stmt"%string) 323%N (Some "PvfCheckStatement"%string) []); (Field (Some "signature"%string) 295%N (Some "ValidatorSignature"%string) [])] 7%N []); (Variant "force_set_most_recent_context"%string [(Field (Some "para"%string) 163%N (Some "ParaId"%string) []); (Field (Some "context"%string) 4%N (Some "BlockNumberFor<T>"%string) [])] 8%N [])]) []).
Definition md_t323 : ty := 
 (Ty ["polkadot_primitives"%string; "v7"%string; "PvfCheckStatement"%string] [] (TComposite [(Field (Some "accept"%string) 8%N (Some "bool"%string) []); (Field (Some "subject"%string) 302%N (Some "ValidationCodeHash"%string) []); (Field (Some "session_index"%string) 4%N (Some "SessionIndex"%string) []); (Field (Some "validator_index"%string) 294%N (Some "ValidatorIndex"%string) [])]) []).
Definition md_t324 : ty := 
 (Ty ["polkadot_runtime_parachains"%string; "initializer"%string; "pallet"%string; "Call"%string] [("T"%string,None)] (TVariant [(Variant "force_approve"%string [(Field (Some "up_to"%string) 4%N (Some "BlockNumber"%string) [])] 0%N [])]) []).
Definition md_t325 : ty := 
 (Ty ["polkadot_runtime_parachains"%string; "hrmp"%string; "pallet"%string; "Call"%string] [("T"%string,None)] (TVariant [(Variant "hrmp_init_open_channel"%string [(Field (Some "recipient"%string) 163%N (Some "ParaId"%string) []); (Field (Some "proposed_max_capacity"%string) 4%N (Some "u32"%string) []); (Field (Some "proposed_max_message_size"%string) 4%N (Some "u32"%string) [])] 0%N []); (Variant "hrmp_accept_open_channel"%string [(Field (Some "sender"%string) 163%N (Some "ParaId"%string) [])] 1%N []); (Variant "hrmp_close_channel"%string [(Field (Some "channel_id"%string) 326%N (Some "HrmpChannelId"%string) [])] 2%N []); (Variant "force_clean_hrmp"%string [(Field (Some "para"%string) 163%N (Some "ParaId"%string) []); (Field (Some "num_inbound"%string) 4%N (Some "u32"%string) []); (Field (Some "num_outbound"%string) 4%N (Some "u32"%string) [])] 3%N []); (Variant "force_process_hrmp_open"%string [(Field (Some "channels"%string) 4%N (Some "u32"%string) [])] 4%N []); (Variant "force_process_hrmp_close"%string [(Field (Some "channels"%string) 4%N (Some "u32"%string) [])] 5%N []); (Variant "hrmp_cancel_open_request"%string [(Field (Some "channel_id"%string) 326%N (Some "HrmpChannelId"%string) []); (Field (Some "open_requests"%string) 4%N (Some "u32"%string) [])] 6%N []); (Variant "force_open_hrmp_channel"%string [(Field (Some "sender"%string) 163%N (Some "ParaId"%string) []); (Field (Some "recipient"%string) 163%N (Some "ParaId"%string) []); (Field (Some "max_capacity"%string) 4%N (Some "u32"%string) []); (Field (Some "max_message_size"%string) 4%N (Some "u32"%string) [])] 7%N []); (Variant "establish_system_channel"%string [(Field (Some "sender"%string) 163%N (Some "ParaId"%string) []); (Field (Some "recipient"%string) 163%N (Some "ParaId"%string) [])] 8%N []); (Variant "poke_channel_deposits"%string [(Field (Some "sender"%string) 163%N (Some "ParaId"%string) []); (Field (Some "recipient"%string) 163%N (Some "ParaId"%string) [])] 9%N []); (Variant "establish_channel_with_system"%string [(Field (Some "target_system_chain"%string) 163%N (Some "ParaId"%string) [])] 10%N [])]) []).
Definition md_t326 : ty := 
 (Ty ["polkadot_parachain_primitives"%string; "primitives"%string; "HrmpChannelId"%string] [] (TComposite [(Field (Some "sender"%string) 163%N (Some "Id"%string) []); (Field (Some "recipient"%string) 163%N (Some "Id"%string) [])]) []).
Definition md_t327 : ty := 
 (Ty ["polkadot_runtime_parachains"%string; "disputes"%string; "pallet"%string; "Call"%string] [("T"%string,None)] (TVariant [(Variant "force_unfreeze"%string [] 0%N [])]) []).
Definition md_t328 : ty := 
 (Ty ["polkadot_runtime_parachains"%string; "disputes"%string; "slashing"%string; "pallet"%string; "Call"%string] [("T"%string,None)] (TVariant [(Variant "report_dispute_lost_unsigned"%string [(Field (Some "dispute_proof"%string) 329%N (Some "Box<DisputeProof>"%string) []); (Field (Some "key_owner_proof"%string) 107%N (Some "T::KeyOwnerProof"%string) [])] 0%N [])]) []).
Definition md_t329 : ty := 
 (Ty ["polkadot_primitives"%string; "v7"%string; "slashing"%string; "DisputeProof"%string] [] (TComposite [(Field (Some "time_slot"%string) 330%N (Some "DisputesTimeSlot"%string) []); (Field (Some "kind"%string) 331%N (Some "SlashingOffenceKind"%string) []); (Field (Some "validator_index"%string) 294%N (Some "ValidatorIndex"%string) []); (Field (Some "validator_id"%string) 135%N (Some "ValidatorId"%string) [])]) []).
Definition md_t330 : ty := 
 (Ty ["polkadot_primitives"%string; "v7"%string; "slashing"%string; "DisputesTimeSlot"%string] [] (TComposite [(Field (Some "session_index"%string) 4%N (Some "SessionIndex"%string) []); (Field (Some "candidate_hash"%string) 315%N (Some "CandidateHash"%string) [])]) []).
Definition md_t331 : ty := 
 (Ty ["polkadot_primitives"%string; "v7"%string; "slashing"%string; "SlashingOffenceKind"%string] [] (TVariant [(Variant "ForInvalid"%string [] 0%N []); (Variant "AgainstValid"%string [] 1%N [])]) []).
Definition md_t332 : ty := 
 (Ty ["polkadot_runtime_parachains"%string; "assigner_on_demand"%string; "pallet"%string; "Call"%string] [("T"%string,None)] (TVariant [(Variant "place_order_allow_death"%string [(Field (Some "max_amount"%string) 6%N (Some "BalanceOf<T>"%string) []); (Field (Some "para_id"%string) 163%N (Some "ParaId"%string) [])] 0%N []); (Variant "place_order_keep_alive"%string [(Field (Some "max_amount"%string) 6%N (Some "BalanceOf<T>"%string) []); (Field (Some "para_id"%string) 163%N (Some "ParaId"%string) [])] 1%N [])]) []).
Definition md_t333 : ty := 
 (Ty ["polkadot_runtime_common"%string; "paras_registrar"%string; "pallet"%string; "Call"%string] [("T"%string,None)] (TVariant [(Variant "register"%string [(Field (Some "id"%string) 163%N (Some "ParaId"%string) []); (Field (Some "genesis_head"%string) 310%N (Some "HeadData"%string) []); (Field (Some "validation_code"%string) 309%N (Some "ValidationCode"%string) [])] 0%N []); (Variant "force_register"%string [(Field (Some "who"%string) 0%N (Some "T::AccountId"%string) []); (Field (Some "deposit"%string) 6%N (Some "BalanceOf<T>"%string) []); (Field (Some "id"%string) 163%N (Some "ParaId"%string) []); (Field (Some "genesis_head"%string) 310%N (Some "HeadData"%string) []); (Field (Some "validation_code"%string) 309%N (Some "ValidationCode"%string) [])] 1%N []); (Variant "deregister"%string [(Field (Some "id"%string) 163%N (Some "ParaId"%string) [])] 2%N []); (Variant "swap"%string [(Field (Some "id"%string) 163%N (Some "ParaId"%string) []); (Field (Some "other"%string) 163%N (Some "ParaId"%string) [])] 3%N []); (Variant "remove_lock"%string [(Field (Some "para"%string) 163%N (Some "ParaId"%string) [])] 4%N []); (Variant "reserve"%string [] 5%N []); (Variant "add_lock"%string [(Field (Some "para"%string) 163%N (Some "ParaId"%string) [])] 6%N []); (Variant "schedule_code_upgrade"%string [(Field (Some "para"%string) 163%N (Some "ParaId"%string) []); (Field (Some "new_code"%string) 309%N (Some "ValidationCode"%string) [])] 7%N []); (Variant "set_current_head"%string [(Field (Some "para"%string) 163%N (Some "ParaId"%string) []); (Field (Some "new_head"%string) 310%N (Some "HeadData"%string) [])] 8%N [])]) []).
Definition md_t334 : ty := 
 (Ty ["polkadot_runtime_common"%string; "slots"%string; "pallet"%string; "Call"%string] [("T"%string,None)] (TVariant [(Variant "force_lease"%string [(Field (Some "para"%string) 163%N (Some "ParaId"%string) []); (Field (Some "leaser"%string) 0%N (Some "T::AccountId"%string) []); (Field (Some "amount"%string) 6%N (Some "BalanceOf<T>"%string) []); (Field (Some "period_begin"%string) 4%N (Some "LeasePeriodOf<T>"%string) []); (Field (Some "period_count"%string) 4%N (Some "LeasePeriodOf<T>"%string) [])] 0%N []); (Variant "clear_all_leases"%string [(Field (Some "para"%string) 163%N (Some "ParaId"%string) [])] 1%N []); (Variant "trigger_onboard"%string [(Field (Some "para"%string) 163%N (Some "ParaId"%string) [])] 2%N [])]) []).
Definition md_t335 : ty := 
 (Ty ["polkadot_runtime_common"%string; "auctions"%string; "pallet"%string; "Call"%string] [("T"%string,None)] (TVariant [(Variant "new_auction"%string [(Field (Some "duration"%string) 59%N (Some "BlockNumberFor<T>"%string) []); (Field (Some "lease_period_index"%string) 59%N (Some "LeasePeriodOf<T>"%string) [])] 0%N []); (Variant "bid"%string [(Field (Some "para"%string) 336%N (Some "ParaId"%string) []); (Field (Some "auction_index"%string) 59%N (Some "AuctionIndex"%string) []); (Field (Some "first_slot"%string) 59%N (Some "LeasePeriodOf<T>"%string) []); (Field (Some "last_slot"%string) 59%N (Some "LeasePeriodOf<T>"%string) []); (Field (Some "amount"%string) 63%N (Some "BalanceOf<T>"%string) [])] 1%N []); (Variant "cancel_auction"%string [] 2%N [])]) []).
Definition md_t336 : ty := 
 (Ty [] [] (TCompact 163%N) []).
Definition md_t337 : ty := 
 (Ty ["polkadot_runtime_common"%string; "crowdloan"%string; "pallet"%string; "Call"%string] [("T"%string,None)] (TVariant [(Variant "create"%string [(Field (Some "index"%string) 336%N (Some "ParaId"%string) []); (Field (Some "cap"%string) 63%N (Some "BalanceOf<T>"%string) []); (Field (Some "first_period"%string) 59%N (Some "LeasePeriodOf<T>"%string) []); (Field (Some "last_period"%string) 59%N (Some "LeasePeriodOf<T>"%string) []); (Field (Some "end"%string) 59%N (Some "BlockNumberFor<T>"%string) []); (Field (Some "verifier"%string) 338%N (Some "Option<MultiSigner>"%string) [])] 0%N []); (Variant "contribute"%string [(Field (Some "index"%string) 336%N (Some "ParaId"%string) []); (Field (Some "value"%string) 63%N (Some "BalanceOf<T>"%string) []); (Field (Some "signature"%string) 340%N (Some "Option<MultiSignature>"%string) [])] 1%N []); (Variant "withdraw"%string [(Field (Some "who"%string) 0%N (Some "T::AccountId"%string) []); (Field (Some "index"%string) 336%N (Some "ParaId"%string) [])] 2%N []); (Variant "refund"%string [(Field (Some "index"%string) 336%N (Some "ParaId"%string) [])] 3%N []); (Variant "dissolve"%string [(Field (Some "index"%string) 336%N (Some "ParaId"%string) [])] 4%N []); (Variant "edit"%string [(Field (Some "index"%string) 336%N (Some "ParaId"%string) []); (Field (Some "cap"%string) 63%N (Some "BalanceOf<T>"%string) []); (Field (Some "first_period"%string) 59%N (Some "LeasePeriodOf<T>"%string) []); (Field (Some "last_period"%string) 59%N (Some "LeasePeriodOf<T>"%string) []); (Field (Some "end"%string) 59%N (Some "BlockNumberFor<T>"%string) []); (Field (Some "verifier"%string) 338%N (Some "Option<MultiSigner>"%string) [])] 5%N []); (Variant "add_memo"%string [(Field (Some "index"%string) 163%N (Some "ParaId"%string) []); (Field (Some "memo"%string) 14%N (Some "Vec<u8>"%string) [])] 6%N []); (Variant "poke"%string [(Field (Some "index"%string) 163%N (Some "ParaId"%string) [])] 7%N []); (Variant "contribute_all"%string [(Field (Some "index"%string) 336%N (Some "ParaId"%string) []); (Field (Some "signature"%string) 340%N (Some "Option<MultiSignature>"%string) [])] 8%N [])]) []).
Definition md_t338 : ty := 
 (Ty ["Option"%string] [("T"%string,(Some 339%N))] (TVariant [(Variant "None"%string [] 0%N []); (Variant "Some"%string [(Field None 339%N None [])] 1%N [])]) []).
Definition md_t339 : ty := 
 (Ty ["sp_runtime"%string; "MultiSigner"%string] [] (TVariant [(Variant "Ed25519"%string [(Field None 1%N (Some "ed25519::Public"%string) [])] 0%N []); (Variant "Sr25519"%string [(Field None 1%N (Some "sr25519::Public"%string) [])] 1%N []); (Variant "Ecdsa"%string [(Field None 139%N (Some "ecdsa::Public"%string) [])] 2%N [])]) []).
Definition md_t340 : ty := 
 (Ty ["Option"%string] [("T"%string,(Some 341%N))] (TVariant [(Variant "None"%string [] 0%N []); (Variant "Some"%string [(Field None 341%N None [])] 1%N [])]) []).
Definition md_t341 : ty := 
 (Ty ["sp_runtime"%string; "MultiSignature"%string] [] (TVariant [(Variant "Ed25519"%string [(Field None 146%N (Some "ed25519::Signature"%string) [])] 0%N []); (Variant "Sr25519"%string [(Field None 146%N (Some "sr25519::Signature"%string) [])] 1%N []); (Variant "Ecdsa"%string [(Field None 182%N (Some "ecdsa::Signature"%string) [])] 2%N [])]) []).
Definition md_t342 : ty := 
 (Ty ["polkadot_runtime_parachains"%string; "coretime"%string; "pallet"%string; "Call"%string] [("T"%string,None)] (TVariant [(Variant "request_core_count"%string [(Field (Some "count"%string) 91%N (Some "u16"%string) [])] 1%N []); (Variant "request_revenue_at"%string [(Field (Some "when"%string) 4%N (Some "BlockNumber"%string) [])] 2%N []); (Variant "assign_core"%string [(Field (Some "core"%string) 91%N (Some "BrokerCoreIndex"%string) []); (Field (Some "begin"%string) 4%N (Some "BlockNumberFor<T>"%string) []); (Field (Some "assignment"%string) 343%N (Some "Vec<(CoreAssignment, PartsOf57600)>"%string) []); (Field (Some "end_hint"%string) 152%N (Some "Option<BlockNumberFor<T>>"%string) [])] 4%N [])]) []).
Definition md_t343 : ty := 
 (Ty [] [] (TSequence 344%N) []).
Definition md_t344 : ty := 
 (Ty [] [] (TTuple [345%N; 346%N]) []).
Definition md_t345 : ty := 
 (Ty ["pallet_broker"%string; "coretime_interface"%string; "CoreAssignment"%string] [] (TVariant [(Variant "Idle"%string [] 0%N []); (Variant "Pool"%string [] 1%N []); (Variant "Task"%string [(Field None 4%N (Some "TaskId"%string) [])] 2%N [])]) []).
Definition md_t346 : ty := 
 (Ty ["polkadot_runtime_parachains"%string; "assigner_coretime"%string; "PartsOf57600"%string] [] (TComposite [(Field None 91%N (Some "u16"%string) [])]) []).
Definition md_t347 : ty := 
 (Ty ["pallet_state_trie_migration"%string; "pallet"%string; "Call"%string] [("T"%string,None)] (TVariant [(Variant "control_auto_migration"%string [(Field (Some "maybe_config"%string) 348%N (Some "Option<MigrationLimits>"%string) [])] 0%N []); (Variant "continue_migrate"%string [(Field (Some "limits"%string) 349%N (Some "MigrationLimits"%string) []); (Field (Some "real_size_upper"%string) 4%N (Some "u32"%string) []); (Field (Some "witness_task"%string) 350%N (Some "MigrationTask<T>"%string) [])] 1%N []); (Variant "migrate_custom_top"%string [(Field (Some "keys"%string) 97%N (Some "Vec<Vec<u8>>"%string) []); (Field (Some "witness_size"%string) 4%N (Some "u32"%string) [])] 2%N []); (Variant "migrate_custom_child"%string [(Field (Some "root"%string) 14%N (Some "Vec<u8>"%string) []); (Field (Some "child_keys"%string) 97%N (Some "Vec<Vec<u8>>"%string) []); (Field (Some "total_size"%string) 4%N (Some "u32"%string) [])] 3%N []); (Variant "set_signed_max_limits"%string [(Field (Some "limits"%string) 349%N (Some "MigrationLimits"%string) [])] 4%N []); (Variant "force_set_progress"%string [(Field (Some "progress_top"%string) 351%N (Some "ProgressOf<T>"%string) []); (Field (Some "progress_child"%string) 351%N (Some "ProgressOf<T>"%string) [])] 5%N [])]) []).
Definition md_t348 : ty := 
 (Ty ["Option"%string] [("T"%string,(Some 349%N))] (TVariant [(Variant "None"%string [] 0%N []); (Variant "Some"%string [(Field None 349%N None [])] 1%N [])]) []).
Definition md_t349 : ty := 
 (Ty ["pallet_state_trie_migration"%string; "pallet"%string; "MigrationLimits"%string] [] (TComposite [(Field (Some "size"%string) 4%N (Some "u32"%string) []); (Field (Some "item"%string) 4%N (Some "u32"%string) [])]) []).
Definition md_t350 : ty := 
 (Ty ["pallet_state_trie_migration"%string; "pallet"%string; "MigrationTask"%string] [("T"%string,None)] (TComposite [(Field (Some "progress_top"%string) 351%N (Some "ProgressOf<T>"%string) []); (Field (Some "progress_child"%string) 351%N (Some "ProgressOf<T>"%string) []); (Field (Some "size"%string) 4%N (Some "u32"%string) []); (Field (Some "top_items"%string) 4%N (Some "u32"%string) []); (Field (Some "child_items"%string) 4%N (Some "u32"%string) [])]) []).
Definition md_t351 : ty := 
 (Ty ["pallet_state_trie_migration"%string; "pallet"%string; "Progress"%string] [("MaxKeyLen"%string,None)] (TVariant [(Variant "ToStart"%string [] 0%N []); (Variant "LastKey"%string [(Field None 352%N (Some "BoundedVec<u8, MaxKeyLen>"%string) [])] 1%N []); (Variant "Complete"%string [] 2%N [])]) []).
Definition md_t352 : ty := 
 (Ty ["bounded_collections"%string; "bounded_vec"%string; "BoundedVec"%string] [("T"%string,(Some 2%N)); ("S"%string,None)] (TComposite [(Field None 14%N (Some "Vec<T>"%string) [])]) []).
Definition md_t353 : ty := 
 (Ty ["pallet_xcm"%string; "pallet"%string; "Call"%string] [("T"%string,None)] (TVariant [(Variant "send"%string [(Field (Some "dest"%string) 81%N (Some "Box<VersionedLocation>"%string) []); (Field (Some "message"%string) 354%N (Some "Box<VersionedXcm<()>>"%string) [])] 0%N []); (Variant "teleport_assets"%string [(Field (Some "dest"%string) 81%N (Some "Box<VersionedLocation>"%string) []); (Field (Some "beneficiary"%string) 81%N (Some "Box<VersionedLocation>"%string) []); (Field (Some "assets"%string) 418%N (Some "Box<VersionedAssets>"%string) []); (Field (Some "fee_asset_item"%string) 4%N (Some "u32"%string) [])] 1%N []); (Variant "reserve_transfer_assets"%string [(Field (Some "dest"%string) 81%N (Some "Box<VersionedLocation>"%string) []); (Field (Some "beneficiary"%string) 81%N (Some "Box<VersionedLocation>"%string) []); (Field (Some "assets"%string) 418%N (Some "Box<VersionedAssets>"%string) []); (Field (Some "fee_asset_item"%string) 4%N (Some "u32"%string) [])] 2%N []); (Variant "execute"%string [(Field (Some "message"%string) 419%N (Some "Box<VersionedXcm<<T as Config>::RuntimeCall>>"%string) []); (Field (Some "max_weight"%string) 10%N (Some "Weight"%string) [])] 3%N []); (Variant "force_xcm_version"%string [(Field (Some "location"%string) 67%N (Some "Box<Location>"%string) []); (Field (Some "version"%string) 4%N (Some "XcmVersion"%string) [])] 4%N []); (Variant "force_default_xcm_version"%string [(Field (Some "maybe_xcm_version"%string) 152%N (Some "Option<XcmVersion>"%string) [])] 5%N []); (Variant "force_subscribe_version_notify"%string [(Field (Some "location"%string) 81%N (Some "Box<VersionedLocation>"%string) [])] 6%N []); (Variant "force_unsubscribe_version_notify"%string [(Field (Some "location"%string) 81%N (Some "Box<VersionedLocation>"%string) [])] 7%N []); (Variant "limited_reserve_transfer_assets"%string [(Field (Some "dest"%string) 81%N (Some "Box<VersionedLocation>"%string) []); (Field (Some "beneficiary"%string) 81%N (Some "Box<VersionedLocation>"%string) []); (Field (Some "assets"%string) 418%N (Some "Box<VersionedAssets>"%string) []); (Field (Some "fee_asset_item"%string) 4%N (Some "u32"%string) []); (Field (Some "weight_limit"%string) 399%N (Some "WeightLimit"%string) [])] 8%N []); (Variant "limited_teleport_assets"%string [(Field (Some "dest"%string) 81%N (Some "Box<VersionedLocation>"%string) []); (Field (Some "beneficiary"%string) 81%N (Some "Box<VersionedLocation>"%string) []); (Field (Some "assets"%string) 418%N (Some "Box<VersionedAssets>"%string) []); (Field (Some "fee_asset_item"%string) 4%N (Some "u32"%string) []); (Field (Some "weight_limit"%string) 399%N (Some "WeightLimit"%string) [])] 9%N []); (Variant "force_suspension"%string [(Field (Some "suspended"%string) 8%N (Some "bool"%string) [])] 10%N []); (Variant "transfer_assets"%string [(Field (Some "dest"%string) 81%N (Some "Box<VersionedLocation>"%string) []); (Field (Some "beneficiary"%string) 81%N (Some "Box<VersionedLocation>"%string) []); (Field (Some "assets"%string) 418%N (Some "Box<VersionedAssets>"%string) []); (Field (Some "fee_asset_item"%string) 4%N (Some "u32"%string) []); (Field (Some "weight_limit"%string) 399%N (Some "WeightLimit"%string) [])] 11%N []); (Variant "claim_assets"%string [(Field (Some "assets"%string) 418%N (Some "Box<VersionedAssets>"%string) []); (Field (Some "beneficiary"%string) 81%N (Some "Box<VersionedLocation>"%string) [])] 12%N []); (Variant "transfer_assets_using_type_and_then"%string [(Field (Some "dest"%string) 81%N (Some "Box<VersionedLocation>"%string) []); (Field (Some "assets"%string) 418%N (Some "Box<VersionedAssets>"%string) []); (Field (Some "assets_transfer_type"%string) 430%N (Some "Box<TransferType>"%string) []); (Field (Some "remote_fees_id"%string) 431%N (Some "Box<VersionedAssetId>"%string) []); (Field (Some "fees_transfer_type"%string) 430%N (Some "Box<TransferType>"%string) []); (Field (Some "custom_xcm_on_dest"%string) 354%N (Some "Box<VersionedXcm<()>>"%string) []); (Field (Some "weight_limit"%string) 399%N (Some "WeightLimit"%string) [])] 13%N [])]) []).
Definition md_t354 : ty := 
 (Ty ["xcm"%string; "VersionedXcm"%string] [("RuntimeCall"%string,None)] (TVariant [(Variant "V2"%string [(Field None 355%N (Some "v2::Xcm<RuntimeCall>"%string) [])] 2%N []); (Variant "V3"%string [(Field None 375%N (Some "v3::Xcm<RuntimeCall>"%string) [])] 3%N []); (Variant "V4"%string [(Field None 400%N (Some "v4::Xcm<RuntimeCall>"%string) [])] 4%N [])]) []).
Definition md_t355 : ty := 
 (Ty ["xcm"%string; "v2"%string; "Xcm"%string] [("RuntimeCall"%string,None)] (TComposite [(Field None 356%N (Some "Vec<Instruction<RuntimeCall>>"%string) [])]) []).
Definition md_t356 : ty := 
 (Ty [] [] (TSequence 357%N) []).
Definition md_t357 : ty := 
 (Ty ["xcm"%string; "v2"%string; "Instruction"%string] [("RuntimeCall"%string,None)] (TVariant [(Variant "WithdrawAsset"%string [(Field None 358%N (Some "MultiAssets"%string) [])] 0%N []); (Variant "ReserveAssetDeposited"%string [(Field None 358%N (Some "MultiAssets"%string) [])] 1%N []); (Variant "ReceiveTeleportedAsset"%string [(Field None 358%N (Some "MultiAssets"%string) [])] 2%N []); (Variant "QueryResponse"%string [(Field (Some "query_id"%string) 11%N (Some "QueryId"%string) []); (Field (Some "response"%string) 365%N (Some "Response"%string) []); (Field (Some "max_weight"%string) 11%N (Some "u64"%string) [])] 3%N []); (Variant "TransferAsset"%string [(Field (Some "assets"%string) 358%N (Some "MultiAssets"%string) []); (Field (Some "beneficiary"%string) 82%N (Some "MultiLocation"%string) [])] 4%N []); (Variant "TransferReserveAsset"%string [(Field (Some "assets"%string) 358%N (Some "MultiAssets"%string) []); (Field (Some "dest"%string) 82%N (Some "MultiLocation"%string) []); (Field (Some "xcm"%string) 355%N (Some "Xcm<()>"%string) [])] 5%N []); (Variant "Transact"%string [(Field (Some "origin_type"%string) 369%N (Some "OriginKind"%string) []); (Field (Some "require_weight_at_most"%string) 11%N (Some "u64"%string) []); (Field (Some "call"%string) 370%N (Some "DoubleEncoded<RuntimeCall>"%string) [])] 6%N []); (Variant "HrmpNewChannelOpenRequest"%string [(Field (Some "sender"%string) 59%N (Some "u32"%string) []); (Field (Some "max_message_size"%string) 59%N (Some "u32"%string) []); (Field (Some "max_capacity"%string) 59%N (Some "u32"%string) [])] 7%N []); (Variant "HrmpChannelAccepted"%string [(Field (Some "recipient"%string) 59%N (Some "u32"%string) [])] 8%N []); (Variant "HrmpChannelClosing"%string [(Field (Some "initiator"%string) 59%N (Some "u32"%string) []); (Field (Some "sender"%string) 59%N (Some "u32"%string) []); (Field (Some "recipient"%string) 59%N (Some "u32"%string) [])] 9%N []); (Variant "ClearOrigin"%string [] 10%N []); (Variant "DescendOrigin"%string [(Field None 83%N (Some "InteriorMultiLocation"%string) [])] 11%N []); (Variant "ReportError"%string [(Field (Some "query_id"%string) 11%N (Some "QueryId"%string) []); (Field (Some "dest"%string) 82%N (Some "MultiLocation"%string) []); (Field (Some "max_response_weight"%string) 11%N (Some "u64"%string) [])] 12%N []); (Variant "DepositAsset"%string [(Field (Some "assets"%string) 371%N (Some "MultiAssetFilter"%string) []); (Field (Some "max_assets"%string) 59%N (Some "u32"%string) []); (Field (Some "beneficiary"%string) 82%N (Some "MultiLocation"%string) [])] 13%N []); (Variant "DepositReserveAsset"%string [(Field (Some "assets"%string) 371%N (Some "MultiAssetFilter"%string) []); (Field (Some "max_assets"%string) 59%N (Some "u32"%string) []); (Field (Some "dest"%string) 82%N (Some "MultiLocation"%string) []); (Field (Some "xcm"%string) 355%N (Some "Xcm<()>"%string) [])] 14%N []); (Variant "ExchangeAsset"%string [(Field (Some "give"%string) 371%N (Some "MultiAssetFilter"%string) []); (Field (Some "receive"%string) 358%N (Some "MultiAssets"%string) [])] 15%N []); (Variant "InitiateReserveWithdraw"%string [(Field (Some "assets"%string) 371%N (Some "MultiAssetFilter"%string) []); (Field (Some "reserve"%string) 82%N (Some "MultiLocation"%string) []); (Field (Some "xcm"%string) 355%N (Some "Xcm<()>"%string) [])] 16%N []); (Variant "InitiateTeleport"%string [(Field (Some "assets"%string) 371%N (Some "MultiAssetFilter"%string) []); (Field (Some "dest"%string) 82%N (Some "MultiLocation"%string) []); (Field (Some "xcm"%string) 355%N (Some "Xcm<()>"%string) [])] 17%N []); (Variant "QueryHolding"%string [(Field (Some "query_id"%string) 11%N (Some "QueryId"%string) []); (Field (Some "dest"%string) 82%N (Some "MultiLocation"%string) []); (Field (Some "assets"%string) 371%N (Some "MultiAssetFilter"%string) []); (Field (Some "max_response_weight"%string) 11%N (Some "u64"%string) [])] 18%N []); (Variant "BuyExecution"%string [(Field (Some "fees"%string) 360%N (Some "MultiAsset"%string) []); (Field (Some "weight_limit"%string) 374%N (Some "WeightLimit"%string) [])] 19%N []); (Variant "RefundSurplus"%string [] 20%N []); (Variant "SetErrorHandler"%string [(Field None 355%N (Some "Xcm<RuntimeCall>"%string) [])] 21%N []); (Variant "SetAppendix"%string [(Field None 355%N (Some "Xcm<RuntimeCall>"%string) [])] 22%N []); (Variant "ClearError"%string [] 23%N []); (Variant "ClaimAsset"%string [(Field (Some "assets"%string) 358%N (Some "MultiAssets"%string) []); (Field (Some "ticket"%string) 82%N (Some "MultiLocation"%string) [])] 24%N []); (Variant "Trap"%string [(Field None 11%N (Some "u64"%string) [])] 25%N []); (Variant "SubscribeVersion"%string [(Field (Some "query_id"%string) 11%N (Some "QueryId"%string) []); (Field (Some "max_response_weight"%string) 11%N (Some "u64"%string) [])] 26%N []); (Variant "UnsubscribeVersion"%string [] 27%N [])]) []).
Definition md_t358 : ty := 
 (Ty ["xcm"%string; "v2"%string; "multiasset"%string; "MultiAssets"%string] [] (TComposite [(Field None 359%N (Some "Vec<MultiAsset>"%string) [])]) []).
Definition md_t359 : ty := 
 (Ty [] [] (TSequence 360%N) []).
Definition md_t360 : ty := 
 (Ty ["xcm"%string; "v2"%string; "multiasset"%string; "MultiAsset"%string] [] (TComposite [(Field (Some "id"%string) 361%N (Some "AssetId"%string) []); (Field (Some "fun"%string) 362%N (Some "Fungibility"%string) [])]) []).
Definition md_t361 : ty := 
 (Ty ["xcm"%string; "v2"%string; "multiasset"%string; "AssetId"%string] [] (TVariant [(Variant "Concrete"%string [(Field None 82%N (Some "MultiLocation"%string) [])] 0%N []); (Variant "Abstract"%string [(Field None 14%N (Some "Vec<u8>"%string) [])] 1%N [])]) []).
Definition md_t362 : ty := 
 (Ty ["xcm"%string; "v2"%string; "multiasset"%string; "Fungibility"%string] [] (TVariant [(Variant "Fungible"%string [(Field None 63%N (Some "u128"%string) [])] 0%N []); (Variant "NonFungible"%string [(Field None 363%N (Some "AssetInstance"%string) [])] 1%N [])]) []).
Definition md_t363 : ty := 
 (Ty ["xcm"%string; "v2"%string; "multiasset"%string; "AssetInstance"%string] [] (TVariant [(Variant "Undefined"%string [] 0%N []); (Variant "Index"%string [(Field None 63%N (Some "u128"%string) [])] 1%N []); (Variant "Array4"%string [(Field None 18%N (Some "[u8; 4]"%string) [])] 2%N []); (Variant "Array8"%string [(Field None 364%N (Some "[u8; 8]"%string) [])] 3%N []); (Variant "Array16"%string [(Field None 48%N (Some "[u8; 16]"%string) [])] 4%N []); (Variant "Array32"%string [(Field None 1%N (Some "[u8; 32]"%string) [])] 5%N []); (Variant "Blob"%string [(Field None 14%N (Some "Vec<u8>"%string) [])] 6%N [])]) []).
Definition md_t364 : ty := 
 (Ty [] [] (TArray 8%N 2%N) []).
Definition md_t365 : ty := 
 (Ty ["xcm"%string; "v2"%string; "Response"%string] [] (TVariant [(Variant "Null"%string [] 0%N []); (Variant "Assets"%string [(Field None 358%N (Some "MultiAssets"%string) [])] 1%N []); (Variant "ExecutionResult"%string [(Field None 366%N (Some "Option<(u32, Error)>"%string) [])] 2%N []); (Variant "Version"%string [(Field None 4%N (Some "super::Version"%string) [])] 3%N [])]) []).
Definition md_t366 : ty := 
 (Ty ["Option"%string] [("T"%string,(Some 367%N))] (TVariant [(Variant "None"%string [] 0%N []); (Variant "Some"%string [(Field None 367%N None [])] 1%N [])]) []).
Definition md_t367 : ty := 
 (Ty [] [] (TTuple [4%N; 368%N]) []).
Definition md_t368 : ty := 
 (Ty ["xcm"%string; "v2"%string; "traits"%string; "Error"%string] [] (TVariant [(Variant "Overflow"%string [] 0%N []); (Variant "Unimplemented"%string [] 1%N []); (Variant "UntrustedReserveLocation"%string [] 2%N []); (Variant "UntrustedTeleportLocation"%string [] 3%N []); (Variant "MultiLocationFull"%string [] 4%N []); (Variant "MultiLocationNotInvertible"%string [] 5%N []); (Variant "BadOrigin"%string [] 6%N []); (Variant "InvalidLocation"%string [] 7%N []); (Variant "AssetNotFound"%string [] 8%N []); (Variant "FailedToTransactAsset"%string [] 9%N []); (Variant "NotWithdrawable"%string [] 10%N []); (Variant "LocationCannotHold"%string [] 11%N []); (Variant "ExceedsMaxMessageSize"%string [] 12%N []); (Variant "DestinationUnsupported"%string [] 13%N []); (Variant "Transport"%string [] 14%N []); (Variant "Unroutable"%string [] 15%N []); (Variant "UnknownClaim"%string [] 16%N []); (Variant "FailedToDecode"%string [] 17%N []); (Variant "MaxWeightInvalid"%string [] 18%N []); (Variant "NotHoldingFees"%string [] 19%N []); (Variant "TooExpensive"%string [] 20%N []); (Variant "Trap"%string [(Field None 12%N (Some "u64"%string) [])] 21%N []); (Variant "UnhandledXcmVersion"%string [] 22%N []); (Variant "WeightLimitReached"%string [(Field None 12%N (Some "Weight"%string) [])] 23%N []); (Variant "Barrier"%string [] 24%N []); (Variant "WeightNotComputable"%string [] 25%N [])]) []).
Definition md_t369 : ty := 
 (Ty ["xcm"%string; "v2"%string; "OriginKind"%string] [] (TVariant [(Variant "Native"%string [] 0%N []); (Variant "SovereignAccount"%string [] 1%N []); (Variant "Superuser"%string [] 2%N []); (Variant "Xcm"%string [] 3%N [])]) []).
Definition md_t370 : ty := 
 (Ty ["xcm"%string; "double_encoded"%string; "DoubleEncoded"%string] [("T"%string,None)] (TComposite [(Field (Some "encoded"%string) 14%N (Some "Vec<u8>"%string) [])]) []).
Definition md_t371 : ty := 
 (Ty ["xcm"%string; "v2"%string; "multiasset"%string; "MultiAssetFilter"%string] [] (TVariant [(Variant "Definite"%string [(Field None 358%N (Some "MultiAssets"%string) [])] 0%N []); (Variant "Wild"%string [(Field None 372%N (Some "WildMultiAsset"%string) [])] 1%N [])]) []).
Definition md_t372 : ty := 
 (Ty ["xcm"%string; "v2"%string; "multiasset"%string; "WildMultiAsset"%string] [] (TVariant [(Variant "All"%string [] 0%N []); (Variant "AllOf"%string [(Field (Some "id"%string) 361%N (Some "AssetId"%string) []); (Field (Some "fun"%string) 373%N (Some "WildFungibility"%string) [])] 1%N [])]) []).
Definition md_t373 : ty := 
 (Ty ["xcm"%string; "v2"%string; "multiasset"%string; "WildFungibility"%string] [] (TVariant [(Variant "Fungible"%string [] 0%N []); (Variant "NonFungible"%string [] 1%N [])]) []).
Definition md_t374 : ty := 
 (Ty ["xcm"%string; "v2"%string; "WeightLimit"%string] [] (TVariant [(Variant "Unlimited"%string [] 0%N []); (Variant "Limited"%string [(Field None 11%N (Some "u64"%string) [])] 1%N [])]) []).
Definition md_t375 : ty := 
 (Ty ["xcm"%string; "v3"%string; "Xcm"%string] [("Call"%string,None)] (TComposite [(Field None 376%N (Some "Vec<Instruction<Call>>"%string) [])]) []).
Definition md_t376 : ty := 
 (Ty [] [] (TSequence 377%N) []).
Definition md_t377 : ty := 
 (Ty ["xcm"%string; "v3"%string; "Instruction"%string] [("Call"%string,None)] (TVariant [(Variant "WithdrawAsset"%string [(Field None 378%N (Some "MultiAssets"%string) [])] 0%N []); (Variant "ReserveAssetDeposited"%string [(Field None 378%N (Some "MultiAssets"%string) [])] 1%N []); (Variant "ReceiveTeleportedAsset"%string [(Field None 378%N (Some "MultiAssets"%string) [])] 2%N []); (Variant "QueryResponse"%string [(Field (Some "query_id"%string) 11%N (Some "QueryId"%string) []); (Field (Some "response"%string) 383%N (Some "Response"%string) []); (Field (Some "max_weight"%string) 10%N (Some "Weight"%string) []); (Field (Some "querier"%string) 393%N (Some "Option<MultiLocation>"%string) [])] 3%N []); (Variant "TransferAsset"%string [(Field (Some "assets"%string) 378%N (Some "MultiAssets"%string) []); (Field (Some "beneficiary"%string) 56%N (Some "MultiLocation"%string) [])] 4%N []); (Variant "TransferReserveAsset"%string [(Field (Some "assets"%string) 378%N (Some "MultiAssets"%string) []); (Field (Some "dest"%string) 56%N (Some "MultiLocation"%string) []); (Field (Some "xcm"%string) 375%N (Some "Xcm<()>"%string) [])] 5%N []); (Variant "Transact"%string [(Field (Some "origin_kind"%string) 394%N (Some "OriginKind"%string) []); (Field (Some "require_weight_at_most"%string) 10%N (Some "Weight"%string) []); (Field (Some "call"%string) 370%N (Some "DoubleEncoded<Call>"%string) [])] 6%N []); (Variant "HrmpNewChannelOpenRequest"%string [(Field (Some "sender"%string) 59%N (Some "u32"%string) []); (Field (Some "max_message_size"%string) 59%N (Some "u32"%string) []); (Field (Some "max_capacity"%string) 59%N (Some "u32"%string) [])] 7%N []); (Variant "HrmpChannelAccepted"%string [(Field (Some "recipient"%string) 59%N (Some "u32"%string) [])] 8%N []); (Variant "HrmpChannelClosing"%string [(Field (Some "initiator"%string) 59%N (Some "u32"%string) []); (Field (Some "sender"%string) 59%N (Some "u32"%string) []); (Field (Some "recipient"%string) 59%N (Some "u32"%string) [])] 9%N []); (Variant "ClearOrigin"%string [] 10%N []); (Variant "DescendOrigin"%string [(Field None 57%N (Some "InteriorMultiLocation"%string) [])] 11%N []); (Variant "ReportError"%string [(Field None 395%N (Some "QueryResponseInfo"%string) [])] 12%N []); (Variant "DepositAsset"%string [(Field (Some "assets"%string) 396%N (Some "MultiAssetFilter"%string) []); (Field (Some "beneficiary"%string) 56%N (Some "MultiLocation"%string) [])] 13%N []); (Variant "DepositReserveAsset"%string [(Field (Some "assets"%string) 396%N (Some "MultiAssetFilter"%string) []); (Field (Some "dest"%string) 56%N (Some "MultiLocation"%string) []); (Field (Some "xcm"%string) 375%N (Some "Xcm<()>"%string) [])] 14%N []); (Variant "ExchangeAsset"%string [(Field (Some "give"%string) 396%N (Some "MultiAssetFilter"%string) []); (Field (Some "want"%string) 378%N (Some "MultiAssets"%string) []); (Field (Some "maximal"%string) 8%N (Some "bool"%string) [])] 15%N []); (Variant "InitiateReserveWithdraw"%string [(Field (Some "assets"%string) 396%N (Some "MultiAssetFilter"%string) []); (Field (Some "reserve"%string) 56%N (Some "MultiLocation"%string) []); (Field (Some "xcm"%string) 375%N (Some "Xcm<()>"%string) [])] 16%N []); (Variant "InitiateTeleport"%string [(Field (Some "assets"%string) 396%N (Some "MultiAssetFilter"%string) []); (Field (Some "dest"%string) 56%N (Some "MultiLocation"%string) []); (Field (Some "xcm"%string) 375%N (Some "Xcm<()>"%string) [])] 17%N []); (Variant "ReportHolding"%string [(Field (Some "response_info"%string) 395%N (Some "QueryResponseInfo"%string) []); (Field (Some "assets"%string) 396%N (Some "MultiAssetFilter"%string) [])] 18%N []); (Variant "BuyExecution"%string [(Field (Some "fees"%string) 380%N (Some "MultiAsset"%string) []); (Field (Some "weight_limit"%string) 399%N (Some "WeightLimit"%string) [])] 19%N []); (Variant "RefundSurplus"%string [] 20%N []); (Variant "SetErrorHandler"%string [(Field None 375%N (Some "Xcm<Call>"%string) [])] 21%N []); (Variant "SetAppendix"%string [(Field None 375%N (Some "Xcm<Call>"%string) [])] 22%N []); (Variant "ClearError"%string [] 23%N []); (Variant "ClaimAsset"%string [(Field (Some "assets"%string) 378%N (Some "MultiAssets"%string) []); (Field (Some "ticket"%string) 56%N (Some "MultiLocation"%string) [])] 24%N []); (Variant "Trap"%string [(Field None 11%N (Some "u64"%string) [])] 25%N []); (Variant "SubscribeVersion"%string [(Field (Some "query_id"%string) 11%N (Some "QueryId"%string) []); (Field (Some "max_response_weight"%string) 10%N (Some "Weight"%string) [])] 26%N []); (Variant "UnsubscribeVersion"%string [] 27%N []); (Variant "BurnAsset"%string [(Field None 378%N (Some "MultiAssets"%string) [])] 28%N []); (Variant "ExpectAsset"%string [(Field None 378%N (Some "MultiAssets"%string) [])] 29%N []); (Variant "ExpectOrigin"%string [(Field None 393%N (Some "Option<MultiLocation>"%string) [])] 30%N []); (Variant "ExpectError"%string [(Field None 384%N (Some "Option<(u32, Error)>"%string) [])] 31%N []); (Variant "ExpectTransactStatus"%string [(Field None 391%N (Some "MaybeErrorCode"%string) [])] 32%N []); (Variant "QueryPallet"%string [(Field (Some "module_name"%string) 14%N (Some "Vec<u8>"%string) []); (Field (Some "response_info"%string) 395%N (Some "QueryResponseInfo"%string) [])] 33%N []); (Variant "ExpectPallet"%string [(Field (Some "index"%string) 59%N (Some "u32"%string) []); (Field (Some "name"%string) 14%N (Some "Vec<u8>"%string) []); (Field (Some "module_name"%string) 14%N (Some "Vec<u8>"%string) []); (Field (Some "crate_major"%string) 59%N (Some "u32"%string) []); (Field (Some "min_crate_minor"%string) 59%N (Some "u32"%string) [])] 34%N []); (Variant "ReportTransactStatus"%string [(Field None 395%N (Some "QueryResponseInfo"%string) [])] 35%N []); (Variant "ClearTransactStatus"%string [] 36%N []); (Variant "UniversalOrigin"%string [(Field None 58%N (Some "Junction"%string) [])] 37%N []); (Variant "ExportMessage"%string [(Field (Some "network"%string) 61%N (Some "NetworkId"%string) []); (Field (Some "destination"%string) 57%N (Some "InteriorMultiLocation"%string) []); (Field (Some "xcm"%string) 375%N (Some "Xcm<()>"%string) [])] 38%N []); (Variant "LockAsset"%string [(Field (Some "asset"%string) 380%N (Some "MultiAsset"%string) []); (Field (Some "unlocker"%string) 56%N (Some "MultiLocation"%string) [])] 39%N []); (Variant "UnlockAsset"%string [(Field (Some "asset"%string) 380%N (Some "MultiAsset"%string) []); (Field (Some "target"%string) 56%N (Some "MultiLocation"%string) [])] 40%N []); (Variant "NoteUnlockable"%string [(Field (Some "asset"%string) 380%N (Some "MultiAsset"%string) []); (Field (Some "owner"%string) 56%N (Some "MultiLocation"%string) [])] 41%N []); (Variant "RequestUnlock"%string [(Field (Some "asset"%string) 380%N (Some "MultiAsset"%string) []); (Field (Some "locker"%string) 56%N (Some "MultiLocation"%string) [])] 42%N []); (Variant "SetFeesMode"%string [(Field (Some "jit_withdraw"%string) 8%N (Some "bool"%string) [])] 43%N []); (Variant "SetTopic"%string [(Field None 1%N (Some "[u8; 32]"%string) [])] 44%N []); (Variant "ClearTopic"%string [] 45%N []); (Variant "AliasOrigin"%string [(Field None 56%N (Some "MultiLocation"%string) [])] 46%N []); (Variant "UnpaidExecution"%string [(Field (Some "weight_limit"%string) 399%N (Some "WeightLimit"%string) []); (Field (Some "check_origin"%string) 393%N (Some "Option<MultiLocation>"%string) [])] 47%N [])]) []).
Definition md_t378 : ty := 
 (Ty ["xcm"%string; "v3"%string; "multiasset"%string; "MultiAssets"%string] [] (TComposite [(Field None 379%N (Some "Vec<MultiAsset>"%string) [])]) []).
Definition md_t379 : ty := 
 (Ty [] [] (TSequence 380%N) []).
Definition md_t380 : ty := 
 (Ty ["xcm"%string; "v3"%string; "multiasset"%string; "MultiAsset"%string] [] (TComposite [(Field (Some "id"%string) 66%N (Some "AssetId"%string) []); (Field (Some "fun"%string) 381%N (Some "Fungibility"%string) [])]) []).
Definition md_t381 : ty := 
 (Ty ["xcm"%string; "v3"%string; "multiasset"%string; "Fungibility"%string] [] (TVariant [(Variant "Fungible"%string [(Field None 63%N (Some "u128"%string) [])] 0%N []); (Variant "NonFungible"%string [(Field None 382%N (Some "AssetInstance"%string) [])] 1%N [])]) []).
Definition md_t382 : ty := 
 (Ty ["xcm"%string; "v3"%string; "multiasset"%string; "AssetInstance"%string] [] (TVariant [(Variant "Undefined"%string [] 0%N []); (Variant "Index"%string [(Field None 63%N (Some "u128"%string) [])] 1%N []); (Variant "Array4"%string [(Field None 18%N (Some "[u8; 4]"%string) [])] 2%N []); (Variant "Array8"%string [(Field None 364%N (Some "[u8; 8]"%string) [])] 3%N []); (Variant "Array16"%string [(Field None 48%N (Some "[u8; 16]"%string) [])] 4%N []); (Variant "Array32"%string [(Field None 1%N (Some "[u8; 32]"%string) [])] 5%N [])]) []).
Definition md_t383 : ty := 
 (Ty ["xcm"%string; "v3"%string; "Response"%string] [] (TVariant [(Variant "Null"%string [] 0%N []); (Variant "Assets"%string [(Field None 378%N (Some "MultiAssets"%string) [])] 1%N []); (Variant "ExecutionResult"%string [(Field None 384%N (Some "Option<(u32, Error)>"%string) [])] 2%N []); (Variant "Version"%string [(Field None 4%N (Some "super::Version"%string) [])] 3%N []); (Variant "PalletsInfo"%string [(Field None 387%N (Some "BoundedVec<PalletInfo, MaxPalletsInfo>"%string) [])] 4%N []); (Variant "DispatchResult"%string [(Field None 391%N (Some "MaybeErrorCode"%string) [])] 5%N [])]) []).
Definition md_t384 : ty := 
 (Ty ["Option"%string] [("T"%string,(Some 385%N))] (TVariant [(Variant "None"%string [] 0%N []); (Variant "Some"%string [(Field None 385%N None [])] 1%N [])]) []).
Definition md_t385 : ty := 
 (Ty [] [] (TTuple [4%N; 386%N]) []).
Definition md_t386 : ty := 
 (Ty ["xcm"%string; "v3"%string; "traits"%string; "Error"%string] [] (TVariant [(Variant "Overflow"%string [] 0%N []); (Variant "Unimplemented"%string [] 1%N []); (Variant "UntrustedReserveLocation"%string [] 2%N []); (Variant "UntrustedTeleportLocation"%string [] 3%N []); (Variant "LocationFull"%string [] 4%N []); (Variant "LocationNotInvertible"%string [] 5%N []); (Variant "BadOrigin"%string [] 6%N []); (Variant "InvalidLocation"%string [] 7%N []); (Variant "AssetNotFound"%string [] 8%N []); (Variant "FailedToTransactAsset"%string [] 9%N []); (Variant "NotWithdrawable"%string [] 10%N []); (Variant "LocationCannotHold"%string [] 11%N []); (Variant "ExceedsMaxMessageSize"%string [] 12%N []); (Variant "DestinationUnsupported"%string [] 13%N []); (Variant "Transport"%string [] 14%N []); (Variant "Unroutable"%string [] 15%N []); (Variant "UnknownClaim"%string [] 16%N []); (Variant "FailedToDecode"%string [] 17%N []); (Variant "MaxWeightInvalid"%string [] 18%N []); (Variant "NotHoldingFees"%string [] 19%N []); (Variant "TooExpensive"%string [] 20%N []); (Variant "Trap"%string [(Field None 12%N (Some "u64"%string) [])] 21%N []); (Variant "ExpectationFalse"%string [] 22%N []); (Variant "PalletNotFound"%string [] 23%N []); (Variant "NameMismatch"%string [] 24%N []); (Variant "VersionIncompatible"%string [] 25%N []); (Variant "HoldingWouldOverflow"%string [] 26%N []); (Variant "ExportError"%string [] 27%N []); (Variant "ReanchorFailed"%string [] 28%N []); (Variant "NoDeal"%string [] 29%N []); (Variant "FeesNotMet"%string [] 30%N []); (Variant "LockError"%string [] 31%N []); (Variant "NoPermission"%string [] 32%N []); (Variant "Unanchored"%string [] 33%N []); (Variant "NotDepositable"%string [] 34%N []); (Variant "UnhandledXcmVersion"%string [] 35%N []); (Variant "WeightLimitReached"%string [(Field None 10%N (Some "Weight"%string) [])] 36%N []); (Variant "Barrier"%string [] 37%N []); (Variant "WeightNotComputable"%string [] 38%N []); (Variant "ExceedsStackLimit"%string [] 39%N [])]) []).
Definition md_t387 : ty := 
 (Ty ["bounded_collections"%string; "bounded_vec"%string; "BoundedVec"%string] [("T"%string,(Some 388%N)); ("S"%string,None)] (TComposite [(Field None 390%N (Some "Vec<T>"%string) [])]) []).
Definition md_t388 : ty := 
 (Ty ["xcm"%string; "v3"%string; "PalletInfo"%string] [] (TComposite [(Field (Some "index"%string) 59%N (Some "u32"%string) []); (Field (Some "name"%string) 389%N (Some "BoundedVec<u8, MaxPalletNameLen>"%string) []); (Field (Some "module_name"%string) 389%N (Some "BoundedVec<u8, MaxPalletNameLen>"%string) []); (Field (Some "major"%string) 59%N (Some "u32"%string) []); (Field (Some "minor"%string) 59%N (Some "u32"%string) []); (Field (Some "patch"%string) 59%N (Some "u32"%string) [])]) []).
Definition md_t389 : ty := 
 (Ty ["bounded_collections"%string; "bounded_vec"%string; "BoundedVec"%string] [("T"%string,(Some 2%N)); ("S"%string,None)] (TComposite [(Field None 14%N (Some "Vec<T>"%string) [])]) []).
Definition md_t390 : ty := 
 (Ty [] [] (TSequence 388%N) []).
Definition md_t391 : ty := 
 (Ty ["xcm"%string; "v3"%string; "MaybeErrorCode"%string] [] (TVariant [(Variant "Success"%string [] 0%N []); (Variant "Error"%string [(Field None 392%N (Some "BoundedVec<u8, MaxDispatchErrorLen>"%string) [])] 1%N []); (Variant "TruncatedError"%string [(Field None 392%N (Some "BoundedVec<u8, MaxDispatchErrorLen>"%string) [])] 2%N [])]) []).
Definition md_t392 : ty := 
 (Ty ["bounded_collections"%string; "bounded_vec"%string; "BoundedVec"%string] [("T"%string,(Some 2%N)); ("S"%string,None)] (TComposite [(Field None 14%N (Some "Vec<T>"%string) [])]) []).
Definition md_t393 : ty := 
 (Ty ["Option"%string] [("T"%string,(Some 56%N))] (TVariant [(Variant "None"%string [] 0%N []); (Variant "Some"%string [(Field None 56%N None [])] 1%N [])]) []).
Definition md_t394 : ty := 
 (Ty ["xcm"%string; "v3"%string; "OriginKind"%string] [] (TVariant [(Variant "Native"%string [] 0%N []); (Variant "SovereignAccount"%string [] 1%N []); (Variant "Superuser"%string [] 2%N []); (Variant "Xcm"%string [] 3%N [])]) []).
Definition md_t395 : ty := 
 (Ty ["xcm"%string; "v3"%string; "QueryResponseInfo"%string] [] (TComposite [(Field (Some "destination"%string) 56%N (Some "MultiLocation"%string) []); (Field (Some "query_id"%string) 11%N (Some "QueryId"%string) []); (Field (Some "max_weight"%string) 10%N (Some "Weight"%string) [])]) []).
Definition md_t396 : ty := 
 (Ty ["xcm"%string; "v3"%string; "multiasset"%string; "MultiAssetFilter"%string] [] (TVariant [(Variant "Definite"%string [(Field None 378%N (Some "MultiAssets"%string) [])] 0%N []); (Variant "Wild"%string [(Field None 397%N (Some "WildMultiAsset"%string) [])] 1%N [])]) []).
Definition md_t397 : ty := 
 (Ty ["xcm"%string; "v3"%string; "multiasset"%string; "WildMultiAsset"%string] [] (TVariant [(Variant "All"%string [] 0%N []); (Variant "AllOf"%string [(Field (Some "id"%string) 66%N (Some "AssetId"%string) []); (Field (Some "fun"%string) 398%N (Some "WildFungibility"%string) [])] 1%N []); (Variant "AllCounted"%string [(Field None 59%N (Some "u32"%string) [])] 2%N []); (Variant "AllOfCounted"%string [(Field (Some "id"%string) 66%N (Some "AssetId"%string) []); (Field (Some "fun"%string) 398%N (Some "WildFungibility"%string) []); (Field (Some "count"%string) 59%N (Some "u32"%string) [])] 3%N [])]) []).
Definition md_t398 : ty := 
 (Ty ["xcm"%string; "v3"%string; "multiasset"%string; "WildFungibility"%string] [] (TVariant [(Variant "Fungible"%string [] 0%N []); (Variant "NonFungible"%string [] 1%N [])]) []).
Definition md_t399 : ty := 
 (Ty ["xcm"%string; "v3"%string; "WeightLimit"%string] [] (TVariant [(Variant "Unlimited"%string [] 0%N []); (Variant "Limited"%string [(Field None 10%N (Some "Weight"%string) [])] 1%N [])]) []).
Definition md_t400 : ty := 
 (Ty ["staging_xcm"%string; "v4"%string; "Xcm"%string] [("Call"%string,None)] (TComposite [(Field None 401%N (Some "Vec<Instruction<Call>>"%string) [])]) []).
Definition md_t401 : ty := 
 (Ty [] [] (TSequence 402%N) []).
Definition md_t402 : ty := 
 (Ty ["staging_xcm"%string; "v4"%string; "Instruction"%string] [("Call"%string,None)] (TVariant [(Variant "WithdrawAsset"%string [(Field None 403%N (Some "Assets"%string) [])] 0%N []); (Variant "ReserveAssetDeposited"%string [(Field None 403%N (Some "Assets"%string) [])] 1%N []); (Variant "ReceiveTeleportedAsset"%string [(Field None 403%N (Some "Assets"%string) [])] 2%N []); (Variant "QueryResponse"%string [(Field (Some "query_id"%string) 11%N (Some "QueryId"%string) []); (Field (Some "response"%string) 408%N (Some "Response"%string) []); (Field (Some "max_weight"%string) 10%N (Some "Weight"%string) []); (Field (Some "querier"%string) 413%N (Some "Option<Location>"%string) [])] 3%N []); (Variant "TransferAsset"%string [(Field (Some "assets"%string) 403%N (Some "Assets"%string) []); (Field (Some "beneficiary"%string) 67%N (Some "Location"%string) [])] 4%N []); (Variant "TransferReserveAsset"%string [(Field (Some "assets"%string) 403%N (Some "Assets"%string) []); (Field (Some "dest"%string) 67%N (Some "Location"%string) []); (Field (Some "xcm"%string) 400%N (Some "Xcm<()>"%string) [])] 5%N []); (Variant "Transact"%string [(Field (Some "origin_kind"%string) 394%N (Some "OriginKind"%string) []); (Field (Some "require_weight_at_most"%string) 10%N (Some "Weight"%string) []); (Field (Some "call"%string) 370%N (Some "DoubleEncoded<Call>"%string) [])] 6%N []); (Variant "HrmpNewChannelOpenRequest"%string [(Field (Some "sender"%string) 59%N (Some "u32"%string) []); (Field (Some "max_message_size"%string) 59%N (Some "u32"%string) []); (Field (Some "max_capacity"%string) 59%N (Some "u32"%string) [])] 7%N []); (Variant "HrmpChannelAccepted"%string [(Field (Some "recipient"%string) 59%N (Some "u32"%string) [])] 8%N []); (Variant "HrmpChannelClosing"%string [(Field (Some "initiator"%string) 59%N (Some "u32"%string) []); (Field (Some "sender"%string) 59%N (Some "u32"%string) []); (Field (Some "recipient"%string) 59%N (Some "u32"%string) [])] 9%N []); (Variant "ClearOrigin"%string [] 10%N []); (Variant "DescendOrigin"%string [(Field None 68%N (Some "InteriorLocation"%string) [])] 11%N []); (Variant "ReportError"%string [(Field None 414%N (Some "QueryResponseInfo"%string) [])] 12%N []); (Variant "DepositAsset"%string [(Field (Some "assets"%string) 415%N (Some "AssetFilter"%string) []); (Field (Some "beneficiary"%string) 67%N (Some "Location"%string) [])] 13%N []); (Variant "DepositReserveAsset"%string [(Field (Some "assets"%string) 415%N (Some "AssetFilter"%string) []); (Field (Some "dest"%string) 67%N (Some "Location"%string) []); (Field (Some "xcm"%string) 400%N (Some "Xcm<()>"%string) [])] 14%N []); (Variant "ExchangeAsset"%string [(Field (Some "give"%string) 415%N (Some "AssetFilter"%string) []); (Field (Some "want"%string) 403%N (Some "Assets"%string) []); (Field (Some "maximal"%string) 8%N (Some "bool"%string) [])] 15%N []); (Variant "InitiateReserveWithdraw"%string [(Field (Some "assets"%string) 415%N (Some "AssetFilter"%string) []); (Field (Some "reserve"%string) 67%N (Some "Location"%string) []); (Field (Some "xcm"%string) 400%N (Some "Xcm<()>"%string) [])] 16%N []); (Variant "InitiateTeleport"%string [(Field (Some "assets"%string) 415%N (Some "AssetFilter"%string) []); (Field (Some "dest"%string) 67%N (Some "Location"%string) []); (Field (Some "xcm"%string) 400%N (Some "Xcm<()>"%string) [])] 17%N []); (Variant "ReportHolding"%string [(Field (Some "response_info"%string) 414%N (Some "QueryResponseInfo"%string) []); (Field (Some "assets"%string) 415%N (Some "AssetFilter"%string) [])] 18%N []); (Variant "BuyExecution"%string [(Field (Some "fees"%string) 405%N (Some "Asset"%string) []); (Field (Some "weight_limit"%string) 399%N (Some "WeightLimit"%string) [])] 19%N []); (Variant "RefundSurplus"%string [] 20%N []); (Variant "SetErrorHandler"%string [(Field None 400%N (Some "Xcm<Call>"%string) [])] 21%N []); (Variant "SetAppendix"%string [(Field None 400%N (Some "Xcm<Call>"%string) [])] 22%N []); (Variant "ClearError"%string [] 23%N []); (Variant "ClaimAsset"%string [(Field (Some "assets"%string) 403%N (Some "Assets"%string) []); (Field (Some "ticket"%string) 67%N (Some "Location"%string) [])] 24%N []); (Variant "Trap"%string [(Field None 11%N (Some "u64"%string) [])] 25%N []); (Variant "SubscribeVersion"%string [(Field (Some "query_id"%string) 11%N (Some "QueryId"%string) []); (Field (Some "max_response_weight"%string) 10%N (Some "Weight"%string) [])] 26%N []); (Variant "UnsubscribeVersion"%string [] 27%N []); (Variant "BurnAsset"%string [(Field None 403%N (Some "Assets"%string) [])] 28%N []); (Variant "ExpectAsset"%string [(Field None 403%N (Some "Assets"%string) [])] 29%N []); (Variant "ExpectOrigin"%string [(Field None 413%N (Some "Option<Location>"%string) [])] 30%N []); (Variant "ExpectError"%string [(Field None 384%N (Some "Option<(u32, Error)>"%string) [])] 31%N []); (Variant "ExpectTransactStatus"%string [(Field None 391%N (Some "MaybeErrorCode"%string) [])] 32%N []); (Variant "QueryPallet"%string [(Field (Some "module_name"%string) 14%N (Some "Vec<u8>"%string) []); (Field (Some "response_info"%string) 414%N (Some "QueryResponseInfo"%string) [])] 33%N []); (Variant "ExpectPallet"%string [(Field (Some "index"%string) 59%N (Some "u32"%string) []); (Field (Some "name"%string) 14%N (Some "Vec<u8>"%string) []); (Field (Some "module_name"%string) 14%N (Some "Vec<u8>"%string) []); (Field (Some "crate_major"%string) 59%N (Some "u32"%string) []); (Field (Some "min_crate_minor"%string) 59%N (Some "u32"%string) [])] 34%N []); (Variant "ReportTransactStatus"%string [(Field None 414%N (Some "QueryResponseInfo"%string) [])] 35%N []); (Variant "ClearTransactStatus"%string [] 36%N []); (Variant "UniversalOrigin"%string [(Field None 70%N (Some "Junction"%string) [])] 37%N []); (Variant "ExportMessage"%string [(Field (Some "network"%string) 72%N (Some "NetworkId"%string) []); (Field (Some "destination"%string) 68%N (Some "InteriorLocation"%string) []); (Field (Some "xcm"%string) 400%N (Some "Xcm<()>"%string) [])] 38%N []); (Variant "LockAsset"%string [(Field (Some "asset"%string) 405%N (Some "Asset"%string) []); (Field (Some "unlocker"%string) 67%N (Some "Location"%string) [])] 39%N []); (Variant "UnlockAsset"%string [(Field (Some "asset"%string) 405%N (Some "Asset"%string) []); (Field (Some "target"%string) 67%N (Some "Location"%string) [])] 40%N []); (Variant "NoteUnlockable"%string [(Field (Some "asset"%string) 405%N (Some "Asset"%string) []); (Field (Some "owner"%string) 67%N (Some "Location"%string) [])] 41%N []); (Variant "RequestUnlock"%string [(Field (Some "asset"%string) 405%N (Some "Asset"%string) []); (Field (Some "locker"%string) 67%N (Some "Location"%string) [])] 42%N []); (Variant "SetFeesMode"%string [(Field (Some "jit_withdraw"%string) 8%N (Some "bool"%string) [])] 43%N []); (Variant "SetTopic"%string [(Field None 1%N (Some "[u8; 32]"%string) [])] 44%N []); (Variant "ClearTopic"%string [] 45%N []); (Variant "AliasOrigin"%string [(Field None 67%N (Some "Location"%string) [])] 46%N []); (Variant "UnpaidExecution"%string [(Field (Some "weight_limit"%string) 399%N (Some "WeightLimit"%string) []); (Field (Some "check_origin"%string) 413%N (Some "Option<Location>"%string) [])] 47%N [])]) []).
Definition md_t403 : ty := 
 (Ty ["staging_xcm"%string; "v4"%string; "asset"%string; "Assets"%string] [] (TComposite [(Field None 404%N (Some "Vec<Asset>"%string) [])]) []).
Definition md_t404 : ty := 
 (Ty [] [] (TSequence 405%N) []).
Definition md_t405 : ty := 
 (Ty ["staging_xcm"%string; "v4"%string; "asset"%string; "Asset"%string] [] (TComposite [(Field (Some "id"%string) 80%N (Some "AssetId"%string) []); (Field (Some "fun"%string) 406%N (Some "Fungibility"%string) [])]) []).
Definition md_t406 : ty := 
 (Ty ["staging_xcm"%string; "v4"%string; "asset"%string; "Fungibility"%string] [] (TVariant [(Variant "Fungible"%string [(Field None 63%N (Some "u128"%string) [])] 0%N []); (Variant "NonFungible"%string [(Field None 407%N (Some "AssetInstance"%string) [])] 1%N [])]) []).
Definition md_t407 : ty := 
 (Ty ["staging_xcm"%string; "v4"%string; "asset"%string; "AssetInstance"%string] [] (TVariant [(Variant "Undefined"%string [] 0%N []); (Variant "Index"%string [(Field None 63%N (Some "u128"%string) [])] 1%N []); (Variant "Array4"%string [(Field None 18%N (Some "[u8; 4]"%string) [])] 2%N []); (Variant "Array8"%string [(Field None 364%N (Some "[u8; 8]"%string) [])] 3%N []); (Variant "Array16"%string [(Field None 48%N (Some "[u8; 16]"%string) [])] 4%N []); (Variant "Array32"%string [(Field None 1%N (Some "[u8; 32]"%string) [])] 5%N [])]) []).
Definition md_t408 : ty := 
 (Ty ["staging_xcm"%string; "v4"%string; "Response"%string] [] (TVariant [(Variant "Null"%string [] 0%N []); (Variant "Assets"%string [(Field None 403%N (Some "Assets"%string) [])] 1%N []); (Variant "ExecutionResult"%string [(Field None 384%N (Some "Option<(u32, Error)>"%string) [])] 2%N []); (Variant "Version"%string [(Field None 4%N (Some "super::Version"%string) [])] 3%N []); (Variant "PalletsInfo"%string [(Field None 409%N (Some "BoundedVec<PalletInfo, MaxPalletsInfo>"%string) [])] 4%N []); (Variant "DispatchResult"%string [(Field None 391%N (Some "MaybeErrorCode"%string) [])] 5%N [])]) []).
Definition md_t409 : ty := 
 (Ty ["bounded_collections"%string; "bounded_vec"%string; "BoundedVec"%string] [("T"%string,(Some 410%N)); ("S"%string,None)] (TComposite [(Field None 412%N (Some "Vec<T>"%string) [])]) []).
Definition md_t410 : ty := 
 (Ty ["staging_xcm"%string; "v4"%string; "PalletInfo"%string] [] (TComposite [(Field (Some "index"%string) 59%N (Some "u32"%string) []); (Field (Some "name"%string) 411%N (Some "BoundedVec<u8, MaxPalletNameLen>"%string) []); (Field (Some "module_name"%string) 411%N (Some "BoundedVec<u8, MaxPalletNameLen>"%string) []); (Field (Some "major"%string) 59%N (Some "u32"%string) []); (Field (Some "minor"%string) 59%N (Some "u32"%string) []); (Field (Some "patch"%string) 59%N (Some "u32"%string) [])]) []).
Definition md_t411 : ty := 
 (Ty ["bounded_collections"%string; "bounded_vec"%string; "BoundedVec"%string] [("T"%string,(Some 2%N)); ("S"%string,None)] (TComposite [(Field None 14%N (Some "Vec<T>"%string) [])]) []).
Definition md_t412 : ty := 
 (Ty [] [] (TSequence 410%N) []).
Definition md_t413 : ty := 
 (Ty ["Option"%string] [("T"%string,(Some 67%N))] (TVariant [(Variant "None"%string [] 0%N []); (Variant "Some"%string [(Field None 67%N None [])] 1%N [])]) []).
Definition md_t414 : ty := 
 (Ty ["staging_xcm"%string; "v4"%string; "QueryResponseInfo"%string] [] (TComposite [(Field (Some "destination"%string) 67%N (Some "Location"%string) []); (Field (Some "query_id"%string) 11%N (Some "QueryId"%string) []); (Field (Some "max_weight"%string) 10%N (Some "Weight"%string) [])]) []).
Definition md_t415 : ty := 
 (Ty ["staging_xcm"%string; "v4"%string; "asset"%string; "AssetFilter"%string] [] (TVariant [(Variant "Definite"%string [(Field None 403%N (Some "Assets"%string) [])] 0%N []); (Variant "Wild"%string [(Field None 416%N (Some "WildAsset"%string) [])] 1%N [])]) []).
Definition md_t416 : ty := 
 (Ty ["staging_xcm"%string; "v4"%string; "asset"%string; "WildAsset"%string] [] (TVariant [(Variant "All"%string [] 0%N []); (Variant "AllOf"%string [(Field (Some "id"%string) 80%N (Some "AssetId"%string) []); (Field (Some "fun"%string) 417%N (Some "WildFungibility"%string) [])] 1%N []); (Variant "AllCounted"%string [(Field None 59%N (Some "u32"%string) [])] 2%N []); (Variant "AllOfCounted"%string [(Field (Some "id"%string) 80%N (Some "AssetId"%string) []); (Field (Some "fun"%string) 417%N (Some "WildFungibility"%string) []); (Field (Some "count"%string) 59%N (Some "u32"%string) [])] 3%N [])]) []).
Definition md_t417 : ty := 
 (Ty ["staging_xcm"%string; "v4"%string; "asset"%string; "WildFungibility"%string] [] (TVariant [(Variant "Fungible"%string [] 0%N []); (Variant "NonFungible"%string [] 1%N [])]) []).
Definition md_t418 : ty := 
 (Ty ["xcm"%string; "VersionedAssets"%string] [] (TVariant [(Variant "V2"%string [(Field None 358%N (Some "v2::MultiAssets"%string) [])] 1%N []); (Variant "V3"%string [(Field None 378%N (Some "v3::MultiAssets"%string) [])] 3%N []); (Variant "V4"%string [(Field None 403%N (Some "v4::Assets"%string) [])] 4%N [])]) []).
Definition md_t419 : ty := 
 (Ty ["xcm"%string; "VersionedXcm"%string] [("RuntimeCall"%string,None)] (TVariant [(Variant "V2"%string [(Field None 420%N (Some "v2::Xcm<RuntimeCall>"%string) [])] 2%N []); (Variant "V3"%string [(Field None 424%N (Some "v3::Xcm<RuntimeCall>"%string) [])] 3%N []); (Variant "V4"%string [(Field None 427%N (Some "v4::Xcm<RuntimeCall>"%string) [])] 4%N [])]) []).
Definition md_t420 : ty := 
 (Ty ["xcm"%string; "v2"%string; "Xcm"%string] [("RuntimeCall"%string,None)] (TComposite [(Field None 421%N (Some "Vec<Instruction<RuntimeCall>>"%string) [])]) []).
Definition md_t421 : ty := 
 (Ty [] [] (TSequence 422%N) []).
Definition md_t422 : ty := 
 (Ty ["xcm"%string; "v2"%string; "Instruction"%string] [("RuntimeCall"%string,None)] (TVariant [(Variant "WithdrawAsset"%string [(Field None 358%N (Some "MultiAssets"%string) [])] 0%N []); (Variant "ReserveAssetDeposited"%string [(Field None 358%N (Some "MultiAssets"%string) [])] 1%N []); (Variant "ReceiveTeleportedAsset"%string [(Field None 358%N (Some "MultiAssets"%string) [])] 2%N []); (Variant "QueryResponse"%string [(Field (Some "query_id"%string) 11%N (Some "QueryId"%string) []); (Field (Some "response"%string) 365%N (Some "Response"%string) []); (Field (Some "max_weight"%string) 11%N (Some "u64"%string) [])] 3%N []); (Variant "TransferAsset"%string [(Field (Some "assets"%string) 358%N (Some "MultiAssets"%string) []); (Field (Some "beneficiary"%string) 82%N (Some "MultiLocation"%string) [])] 4%N []); (Variant "TransferReserveAsset"%string [(Field (Some "assets"%string) 358%N (Some "MultiAssets"%string) []); (Field (Some "dest"%string) 82%N (Some "MultiLocation"%string) []); (Field (Some "xcm"%string) 355%N (Some "Xcm<()>"%string) [])] 5%N []); (Variant "Transact"%string [(Field (Some "origin_type"%string) 369%N (Some "OriginKind"%string) []); (Field (Some "require_weight_at_most"%string) 11%N (Some "u64"%string) []); (Field (Some "call"%string) 423%N (Some "DoubleEncoded<RuntimeCall>"%string) [])] 6%N []); (Variant "HrmpNewChannelOpenRequest"%string [(Field (Some "sender"%string) 59%N (Some "u32"%string) []); (Field (Some "max_message_size"%string) 59%N (Some "u32"%string) []); (Field (Some "max_capacity"%string) 59%N (Some "u32"%string) [])] 7%N []); (Variant "HrmpChannelAccepted"%string [(Field (Some "recipient"%string) 59%N (Some "u32"%string) [])] 8%N []); (Variant "HrmpChannelClosing"%string [(Field (Some "initiator"%string) 59%N (Some "u32"%string) []); (Field (Some "sender"%string) 59%N (Some "u32"%string) []); (Field (Some "recipient"%string) 59%N (Some "u32"%string) [])] 9%N []); (Variant "ClearOrigin"%string [] 10%N []); (Variant "DescendOrigin"%string [(Field None 83%N (Some "InteriorMultiLocation"%string) [])] 11%N []); (Variant "ReportError"%string [(Field (Some "query_id"%string) 11%N (Some "QueryId"%string) []); (Field (Some "dest"%string) 82%N (Some "MultiLocation"%string) []); (Field (Some "max_response_weight"%string) 11%N (Some "u64"%string) [])] 12%N []); (Variant "DepositAsset"%string [(Field (Some "assets"%string) 371%N (Some "MultiAssetFilter"%string) []); (Field (Some "max_assets"%string) 59%N (Some "u32"%string) []); (Field (Some "beneficiary"%string) 82%N (Some "MultiLocation"%string) [])] 13%N []); (Variant "DepositReserveAsset"%string [(Field (Some "assets"%string) 371%N (Some "MultiAssetFilter"%string) []); (Field (Some "max_assets"%string) 59%N (Some "u32"%string) []); (Field (Some "dest"%string) 82%N (Some "MultiLocation"%string) []); (Field (Some "xcm"%string) 355%N (Some "Xcm<()>"%string) [])] 14%N []); (Variant "ExchangeAsset"%string [(Field (Some "give"%string) 371%N (Some "MultiAssetFilter"%string) []); (Field (Some "receive"%string) 358%N (Some "MultiAssets"%string) [])] 15%N []); (Variant "InitiateReserveWithdraw"%string [(Field (Some "assets"%string) 371%N (Some "MultiAssetFilter"%string) []); (Field (Some "reserve"%string) 82%N (Some "MultiLocation"%string) []); (Field (Some "xcm"%string) 355%N (Some "Xcm<()>"%string) [])] 16%N []); (Variant "InitiateTeleport"%string [(Field (Some "assets"%string) 371%N (Some "MultiAssetFilter"%string) []); (Field (Some "dest"%string) 82%N (Some "MultiLocation"%string) []); (Field (Some "xcm"%string) 355%N (Some "Xcm<()>"%string) [])] 17%N []); (Variant "QueryHolding"%string [(Field (Some "query_id"%string) 11%N (Some "QueryId"%string) []); (Field (Some "dest"%string) 82%N (Some "MultiLocation"%string) []); (Field (Some "assets"%string) 371%N (Some "MultiAssetFilter"%string) []); (Field (Some "max_response_weight"%string) 11%N (Some "u64"%string) [])] 18%N []); (Variant "BuyExecution"%string [(Field (Some "fees"%string) 360%N (Some "MultiAsset"%string) []); (Field (Some "weight_limit"%string) 374%N (Some "WeightLimit"%string) [])] 19%N []); (Variant "RefundSurplus"%string [] 20%N []); (Variant "SetErrorHandler"%string [(Field None 420%N (Some "Xcm<RuntimeCall>"%string) [])] 21%N []); (Variant "SetAppendix"%string [(Field None 420%N (Some "Xcm<RuntimeCall>"%string) [])] 22%N []); (Variant "ClearError"%string [] 23%N []); (Variant "ClaimAsset"%string [(Field (Some "assets"%string) 358%N (Some "MultiAssets"%string) []); (Field (Some "ticket"%string) 82%N (Some "MultiLocation"%string) [])] 24%N []); (Variant "Trap"%string [(Field None 11%N (Some "u64"%string) [])] 25%N []); (Variant "SubscribeVersion"%string [(Field (Some "query_id"%string) 11%N (Some "QueryId"%string) []); (Field (Some "max_response_weight"%string) 11%N (Some "u64"%string) [])] 26%N []); (Variant "UnsubscribeVersion"%string [] 27%N [])]) []).
Definition md_t423 : ty := 
 (Ty ["xcm"%string; "double_encoded"%string; "DoubleEncoded"%string] [("T"%string,None)] (TComposite [(Field (Some "encoded"%string) 14%N (Some "Vec<u8>"%string) [])]) []).
Definition md_t424 : ty := 
 (Ty ["xcm"%string; "v3"%string; "Xcm"%string] [("Call"%string,None)] (TComposite [(Field None 425%N (Some "Vec<Instruction<Call>>"%string) [])]) []).
Definition md_t425 : ty := 
 (Ty [] [] (TSequence 426%N) []).
Definition md_t426 : ty := 
 (Ty ["xcm"%string; "v3"%string; "Instruction"%string] [("Call"%string,None)] (TVariant [(Variant "WithdrawAsset"%string [(Field None 378%N (Some "MultiAssets"%string) [])] 0%N []); (Variant "ReserveAssetDeposited"%string [(Field None 378%N (Some "MultiAssets"%string) [])] 1%N []); (Variant "ReceiveTeleportedAsset"%string [(Field None 378%N (Some "MultiAssets"%string) [])] 2%N []); (Variant "QueryResponse"%string [(Field (Some "query_id"%string) 11%N (Some "QueryId"%string) []); (Field (Some "response"%string) 383%N (Some "Response"%string) []); (Field (Some "max_weight"%string) 10%N (Some "Weight"%string) []); (Field (Some "querier"%string) 393%N (Some "Option<MultiLocation>"%string) [])] 3%N []); (Variant "TransferAsset"%string [(Field (Some "assets"%string) 378%N (Some "MultiAssets"%string) []); (Field (Some "beneficiary"%string) 56%N (Some "MultiLocation"%string) [])] 4%N []); (Variant "TransferReserveAsset"%string [(Field (Some "assets"%string) 378%N (Some "MultiAssets"%string) []); (Field (Some "dest"%string) 56%N (Some "MultiLocation"%string) []); (Field (Some "xcm"%string) 375%N (Some "Xcm<()>"%string) [])] 5%N []); (Variant "Transact"%string [(Field (Some "origin_kind"%string) 394%N (Some "OriginKind"%string) []); (Field (Some "require_weight_at_most"%string) 10%N (Some "Weight"%string) []); (Field (Some "call"%string) 423%N (Some "DoubleEncoded<Call>"%string) [])] 6%N []); (Variant "HrmpNewChannelOpenRequest"%string [(Field (Some "sender"%string) 59%N (Some "u32"%string) []); (Field (Some "max_message_size"%string) 59%N (Some "u32"%string) []); (Field (Some "max_capacity"%string) 59%N (Some "u32"%string) [])] 7%N []); (Variant "HrmpChannelAccepted"%string [(Field (Some "recipient"%string) 59%N (Some "u32"%string) [])] 8%N []); (Variant "HrmpChannelClosing"%string [(Field (Some "initiator"%string) 59%N (Some "u32"%string) []); (Field (Some "sender"%string) 59%N (Some "u32"%string) []); (Field (Some "recipient"%string) 59%N (Some "u32"%string) [])] 9%N []); (Variant "ClearOrigin"%string [] 10%N []); (Variant "DescendOrigin"%string [(Field None 57%N (Some "InteriorMultiLocation"%string) [])] 11%N []); (Variant "ReportError"%string [(Field None 395%N (Some "QueryResponseInfo"%string) [])] 12%N []); (Variant "DepositAsset"%string [(Field (Some "assets"%string) 396%N (Some "MultiAssetFilter"%string) []); (Field (Some "beneficiary"%string) 56%N (Some "MultiLocation"%string) [])] 13%N []); (Variant "DepositReserveAsset"%string [(Field (Some "assets"%string) 396%N (Some "MultiAssetFilter"%string) []); (Field (Some "dest"%string) 56%N (Some "MultiLocation"%string) []); (Field (Some "xcm"%string) 375%N (Some "Xcm<()>"%string) [])] 14%N []); (Variant "ExchangeAsset"%string [(Field (Some "give"%string) 396%N (Some "MultiAssetFilter"%string) []); (Field (Some "want"%string) 378%N (Some "MultiAssets"%string) []); (Field (Some "maximal"%string) 8%N (Some "bool"%string) [])] 15%N []); (Variant "InitiateReserveWithdraw"%string [(Field (Some "assets"%string) 396%N (Some "MultiAssetFilter"%string) []); (Field (Some "reserve"%string) 56%N (Some "MultiLocation"%string) []); (Field (Some "xcm"%string) 375%N (Some "Xcm<()>"%string) [])] 16%N []); (Variant "InitiateTeleport"%string [(Field (Some "assets"%string) 396%N (Some "MultiAssetFilter"%string) []); (Field (Some "dest"%string) 56%N (Some "MultiLocation"%string) []); (Field (Some "xcm"%string) 375%N (Some "Xcm<()>"%string) [])] 17%N []); (Variant "ReportHolding"%string [(Field (Some "response_info"%string) 395%N (Some "QueryResponseInfo"%string) []); (Field (Some "assets"%string) 396%N (Some "MultiAssetFilter"%string) [])] 18%N []); (Variant "BuyExecution"%string [(Field (Some "fees"%string) 380%N (Some "MultiAsset"%string) []); (Field (Some "weight_limit"%string) 399%N (Some "WeightLimit"%string) [])] 19%N []); (Variant "RefundSurplus"%string [] 20%N []); (Variant "SetErrorHandler"%string [(Field None 424%N (Some "Xcm<Call>"%string) [])] 21%N []); (Variant "SetAppendix"%string [(Field None 424%N (Some "Xcm<Call>"%string) [])] 22%N []); (Variant "ClearError"%string [] 23%N []); (Variant "ClaimAsset"%string [(Field (Some "assets"%string) 378%N (Some "MultiAssets"%string) []); (Field (Some "ticket"%string) 56%N (Some "MultiLocation"%string) [])] 24%N []); (Variant "Trap"%string [(Field None 11%N (Some "u64"%string) [])] 25%N []); (Variant "SubscribeVersion"%string [(Field (Some "query_id"%string) 11%N (Some "QueryId"%string) []); (Field (Some "max_response_weight"%string) 10%N (Some "Weight"%string) [])] 26%N []); (Variant "UnsubscribeVersion"%string [] 27%N []); (Variant "BurnAsset"%string [(Field None 378%N (Some "MultiAssets"%string) [])] 28%N []); (Variant "ExpectAsset"%string [(Field None 378%N (Some "MultiAssets"%string) [])] 29%N []); (Variant "ExpectOrigin"%string [(Field None 393%N (Some "Option<MultiLocation>"%string) [])] 30%N []); (Variant "ExpectError"%string [(Field None 384%N (Some "Option<(u32, Error)>"%string) [])] 31%N []); (Variant "ExpectTransactStatus"%string [(Field None 391%N (Some "MaybeErrorCode"%string) [])] 32%N []); (Variant "QueryPallet"%string [(Field (Some "module_name"%string) 14%N (Some "Vec<u8>"%string) []); (Field (Some "response_info"%string) 395%N (Some "QueryResponseInfo"%string) [])] 33%N []); (Variant "ExpectPallet"%string [(Field (Some "index"%string) 59%N (Some "u32"%string) []); (Field (Some "name"%string) 14%N (Some "Vec<u8>"%string) []); (Field (Some "module_name"%string) 14%N (Some "Vec<u8>"%string) []); (Field (Some "crate_major"%string) 59%N (Some "u32"%string) []); (Field (Some "min_crate_minor"%string) 59%N (Some "u32"%string) [])] 34%N []); (Variant "ReportTransactStatus"%string [(Field None 395%N (Some "QueryResponseInfo"%string) [])] 35%N []); (Variant "ClearTransactStatus"%string [] 36%N []); (Variant "UniversalOrigin"%string [(Field None 58%N (Some "Junction"%string) [])] 37%N []); (Variant "ExportMessage"%string [(Field (Some "network"%string) 61%N (Some "NetworkId"%string) []); (Field (Some "destination"%string) 57%N (Some "InteriorMultiLocation"%string) []); (Field (Some "xcm"%string) 375%N (Some "Xcm<()>"%string) [])] 38%N []); (Variant "LockAsset"%string [(Field (Some "asset"%string) 380%N (Some "MultiAsset"%string) []); (Field (Some "unlocker"%string) 56%N (Some "MultiLocation"%string) [])] 39%N []); (Variant "UnlockAsset"%string [(Field (Some "asset"%string) 380%N (Some "MultiAsset"%string) []); (Field (Some "target"%string) 56%N (Some "MultiLocation"%string) [])] 40%N []); (Variant "NoteUnlockable"%string [(Field (Some "asset"%string) 380%N (Some "MultiAsset"%string) []); (Field (Some "owner"%string) 56%N (Some "MultiLocation"%string) [])] 41%N []); (Variant "RequestUnlock"%string [(Field (Some "asset"%string) 380%N (Some "MultiAsset"%string) []); (Field (Some "locker"%string) 56%N (Some "MultiLocation"%string) [])] 42%N []); (Variant "SetFeesMode"%string [(Field (Some "jit_withdraw"%string) 8%N (Some "bool"%string) [])] 43%N []); (Variant "SetTopic"%string [(Field None 1%N (Some "[u8; 32]"%string) [])] 44%N []); (Variant "ClearTopic"%string [] 45%N []); (Variant "AliasOrigin"%string [(Field None 56%N (Some "MultiLocation"%string) [])] 46%N []); (Variant "UnpaidExecution"%string [(Field (Some "weight_limit"%string) 399%N (Some "WeightLimit"%string) []); (Field (Some "check_origin"%string) 393%N (Some "Option<MultiLocation>"%string) [])] 47%N [])]) []).
Definition md_t427 : ty := 
 (Ty ["staging_xcm"%string; "v4"%string; "Xcm"%string] [("Call"%string,None)] (TComposite [(Field None 428%N (Some "Vec<Instruction<Call>>"%string) [])]) []).
Definition md_t428 : ty := 
 (Ty [] [] (TSequence 429%N) []).
Definition md_t429 : ty := 
 (Ty ["staging_xcm"%string; "v4"%string; "Instruction"%string] [("Call"%string,None)] (TVariant [(Variant "WithdrawAsset"%string [(Field None 403%N (Some "Assets"%string) [])] 0%N []); (Variant "ReserveAssetDeposited"%string [(Field None 403%N (Some "Assets"%string) [])] 1%N []); (Variant "ReceiveTeleportedAsset"%string [(Field None 403%N (Some "Assets"%string) [])] 2%N []); (Variant "QueryResponse"%string [(Field (Some "query_id"%string) 11%N (Some "QueryId"%string) []); (Field (Some "response"%string) 408%N (Some "Response"%string) []); (Field (Some "max_weight"%string) 10%N (Some "Weight"%string) []); (Field (Some "querier"%string) 413%N (Some "Option<Location>"%string) [])] 3%N []); (Variant "TransferAsset"%string [(Field (Some "assets"%string) 403%N (Some "Assets"%string) []); (Field (Some "beneficiary"%string) 67%N (Some "Location"%string) [])] 4%N []); (Variant "TransferReserveAsset"%string [(Field (Some "assets"%string) 403%N (Some "Assets"%string) []); (Field (Some "dest"%string) 67%N (Some "Location"%string) []); (Field (Some "xcm"%string) 400%N (Some "Xcm<()>"%string) [])] 5%N []); (Variant "Transact"%string [(Field (Some "origin_kind"%string) 394%N (Some "OriginKind"%string) []); (Field (Some "require_weight_at_most"%string) 10%N (Some "Weight"%string) []); (Field (Some "call"%string) 423%N (Some "DoubleEncoded<Call>"%string) [])] 6%N []); (Variant "HrmpNewChannelOpenRequest"%string [(Field (Some "sender"%string) 59%N (Some "u32"%string) []); (Field (Some "max_message_size"%string) 59%N (Some "u32"%string) []); (Field (Some "max_capacity"%string) 59%N (Some "u32"%string) [])] 7%N []); (Variant "HrmpChannelAccepted"%string [(Field (Some "recipient"%string) 59%N (Some "u32"%string) [])] 8%N []); (Variant "HrmpChannelClosing"%string [(Field (Some "initiator"%string) 59%N (Some "u32"%string) []); (Field (Some "sender"%string) 59%N (Some "u32"%string) []); (Field (Some "recipient"%string) 59%N (Some "u32"%string) [])] 9%N []); (Variant "ClearOrigin"%string [] 10%N []); (Variant "DescendOrigin"%string [(Field None 68%N (Some "InteriorLocation"%string) [])] 11%N []); (Variant "ReportError"%string [(Field None 414%N (Some "QueryResponseInfo"%string) [])] 12%N []); (Variant "DepositAsset"%string [(Field (Some "assets"%string) 415%N (Some "AssetFilter"%string) []); (Field (Some "beneficiary"%string) 67%N (Some "Location"%string) [])] 13%N []); (Variant "DepositReserveAsset"%string [(Field (Some "assets"%string) 415%N (Some "AssetFilter"%string) []); (Field (Some "dest"%string) 67%N (Some "Location"%string) []); (Field (Some "xcm"%string) 400%N (Some "Xcm<()>"%string) [])] 14%N []); (Variant "ExchangeAsset"%string [(Field (Some "give"%string) 415%N (Some "AssetFilter"%string) []); (Field (Some "want"%string) 403%N (Some "Assets"%string) []); (Field (Some "maximal"%string) 8%N (Some "bool"%string) [])] 15%N []); (Variant "InitiateReserveWithdraw"%string [(Field (Some "assets"%string) 415%N (Some "AssetFilter"%string) []); (Field (Some "reserve"%string) 67%N (Some "Location"%string) []); (Field (Some "xcm"%string) 400%N (Some "Xcm<()>"%string) [])] 16%N []); (Variant "InitiateTeleport"%string [(Field (Some "assets"%string) 415%N (Some "AssetFilter"%string) []); (Field (Some "dest"%string) 67%N (Some "Location"%string) []); (Field (Some "xcm"%string) 400%N (Some "Xcm<()>"%string) [])] 17%N []); (Variant "ReportHolding"%string [(Field (Some "response_info"%string) 414%N (Some "QueryResponseInfo"%string) []); (Field (Some "assets"%string) 415%N (Some "AssetFilter"%string) [])] 18%N []); (Variant "BuyExecution"%string [(Field (Some "fees"%string) 405%N (Some "Asset"%string) []); (Field (Some "weight_limit"%string) 399%N (Some "WeightLimit"%string) [])] 19%N []); (Variant "RefundSurplus"%string [] 20%N []); (Variant "SetErrorHandler"%string [(Field None 427%N (Some "Xcm<Call>"%string) [])] 21%N []); (Variant "SetAppendix"%string [(Field None 427%N (Some "Xcm<Call>"%string) [])] 22%N []); (Variant "ClearError"%string [] 23%N []); (Variant "ClaimAsset"%string [(Field (Some "assets"%string) 403%N (Some "Assets"%string) []); (Field (Some "ticket"%string) 67%N (Some "Location"%string) [])] 24%N []); (Variant "Trap"%string [(Field None 11%N (Some "u64"%string) [])] 25%N []); (Variant "SubscribeVersion"%string [(Field (Some "query_id"%string) 11%N (Some "QueryId"%string) []); (Field (Some "max_response_weight"%string) 10%N (Some "Weight"%string) [])] 26%N []); (Variant "UnsubscribeVersion"%string [] 27%N []); (Variant "BurnAsset"%string [(Field None 403%N (Some "Assets"%string) [])] 28%N []); (Variant "ExpectAsset"%string [(Field None 403%N (Some "Assets"%string) [])] 29%N []); (Variant "ExpectOrigin"%string [(Field None 413%N (Some "Option<Location>"%string) [])] 30%N []); (Variant "ExpectError"%string [(Field None 384%N (Some "Option<(u32, Error)>"%string) [])] 31%N []); (Variant "ExpectTransactStatus"%string [(Field None 391%N (Some "MaybeErrorCode"%string) [])] 32%N []); (Variant "QueryPallet"%string [(Field (Some "module_name"%string) 14%N (Some "Vec<u8>"%string) []); (Field (Some "response_info"%string) 414%N (Some "QueryResponseInfo"%string) [])] 33%N []); (Variant "ExpectPallet"%string [(Field (Some "index"%string) 59%N (Some "u32"%string) []); (Field (Some "name"%string) 14%N (Some "Vec<u8>"%string) []); (Field (Some "module_name"%string) 14%N (Some "Vec<u8>"%string) []); (Field (Some "crate_major"%string) 59%N (Some "u32"%string) []); (Field (Some "min_crate_minor"%string) 59%N (Some "u32"%string) [])] 34%N []); (Variant "ReportTransactStatus"%string [(Field None 414%N (Some "QueryResponseInfo"%string) [])] 35%N []); (Variant "ClearTransactStatus"%string [] 36%N []); (Variant "UniversalOrigin"%string [(Field None 70%N (Some "Junction"%string) [])] 37%N []); (Variant "ExportMessage"%string [(Field (Some "network"%string) 72%N (Some "NetworkId"%string) []); (Field (Some "destination"%string) 68%N (Some "InteriorLocation"%string) []); (Field (Some "xcm"%string) 400%N (Some "Xcm<()>"%string) [])] 38%N []); (Variant "LockAsset"%string [(Field (Some "asset"%string) 405%N (Some "Asset"%string) []); (Field (Some "unlocker"%string) 67%N (Some "Location"%string) [])] 39%N []); (Variant "UnlockAsset"%string [(Field (Some "asset"%string) 405%N (Some "Asset"%string) []); (Field (Some "target"%string) 67%N (Some "Location"%string) [])] 40%N []); (Variant "NoteUnlockable"%string [(Field (Some "asset"%string) 405%N (Some "Asset"%string) []); (Field (Some "owner"%string) 67%N (Some "Location"%string) [])] 41%N []); (Variant "RequestUnlock"%string [(Field (Some "asset"%string) 405%N (Some "Asset"%string) []); (Field (Some "locker"%string) 67%N (Some "Location"%string) [])] 42%N []); (Variant "SetFeesMode"%string [(Field (Some "jit_withdraw"%string) 8%N (Some "bool"%string) [])] 43%N []); (Variant "SetTopic"%string [(Field None 1%N (Some "[u8; 32]"%string) [])] 44%N []); (Variant "ClearTopic"%string [] 45%N []); (Variant "AliasOrigin"%string [(Field None 67%N (Some "Location"%string) [])] 46%N []); (Variant "UnpaidExecution"%string [(Field (Some "weight_limit"%string) 399%N (Some "WeightLimit"%string) []); (Field (Some "check_origin"%string) 413%N (Some "Option<Location>"%string) [])] 47%N [])]) []).
Definition md_t430 : ty := 
 (Ty ["staging_xcm_executor"%string; "traits"%string; "asset_transfer"%string; "TransferType"%string] [] (TVariant [(Variant "Teleport"%string [] 0%N []); (Variant "LocalReserve"%string [] 1%N []); (Variant "DestinationReserve"%string [] 2%N []); (Variant "RemoteReserve"%string [(Field None 81%N (Some "VersionedLocation"%string) [])] 3%N [])]) []).
Definition md_t431 : ty := 
 (Ty ["xcm"%string; "VersionedAssetId"%string] [] (TVariant [(Variant "V3"%string [(Field None 66%N (Some "v3::AssetId"%string) [])] 3%N []); (Variant "V4"%string [(Field None 80%N (Some "v4::AssetId"%string) [])] 4%N [])]) []).
Definition md_t432 : ty := 
 (Ty ["pallet_message_queue"%string; "pallet"%string; "Call"%string] [("T"%string,None)] (TVariant [(Variant "reap_page"%string [(Field (Some "message_origin"%string) 433%N (Some "MessageOriginOf<T>"%string) []); (Field (Some "page_index"%string) 4%N (Some "PageIndex"%string) [])] 0%N []); (Variant "execute_overweight"%string [(Field (Some "message_origin"%string) 433%N (Some "MessageOriginOf<T>"%string) []); (Field (Some "page"%string) 4%N (Some "PageIndex"%string) []); (Field (Some "index"%string) 4%N (Some "T::Size"%string) []); (Field (Some "weight_limit"%string) 10%N (Some "Weight"%string) [])] 1%N [])]) []).
Definition md_t433 : ty := 
 (Ty ["polkadot_runtime_parachains"%string; "inclusion"%string; "AggregateMessageOrigin"%string] [] (TVariant [(Variant "Ump"%string [(Field None 434%N (Some "UmpQueueId"%string) [])] 0%N [])]) []).
Definition md_t434 : ty := 
 (Ty ["polkadot_runtime_parachains"%string; "inclusion"%string; "UmpQueueId"%string] [] (TVariant [(Variant "Para"%string [(Field None 163%N (Some "ParaId"%string) [])] 0%N [])]) []).
Definition md_t435 : ty := 
 (Ty ["pallet_asset_rate"%string; "pallet"%string; "Call"%string] [("T"%string,None)] (TVariant [(Variant "create"%string [(Field (Some "asset_kind"%string) 55%N (Some "Box<T::AssetKind>"%string) []); (Field (Some "rate"%string) 436%N (Some "FixedU128"%string) [])] 0%N []); (Variant "update"%string [(Field (Some "asset_kind"%string) 55%N (Some "Box<T::AssetKind>"%string) []); (Field (Some "rate"%string) 436%N (Some "FixedU128"%string) [])] 1%N []); (Variant "remove"%string [(Field (Some "asset_kind"%string) 55%N (Some "Box<T::AssetKind>"%string) [])] 2%N [])]) []).
Definition md_t436 : ty := 
 (Ty ["sp_arithmetic"%string; "fixed_point"%string; "FixedU128"%string] [] (TComposite [(Field None 6%N (Some "u128"%string) [])]) []).
Definition md_t437 : ty := 
 (Ty ["pallet_beefy"%string; "pallet"%string; "Call"%string] [("T"%string,None)] (TVariant [(Variant "report_equivocation"%string [(Field (Some "equivocation_proof"%string) 438%N (Some "Box<DoubleVotingProof<BlockNumberFor<T>, T::BeefyId,<T::BeefyId
as RuntimeAppPublic>::Signature,>,>"%string) []); (Field (Some "key_owner_proof"%string) 107%N (Some "T::KeyOwnerProof"%string) [])] 0%N []); (Variant "report_equivocation_unsigned"%string [(Field (Some "equivocation_proof"%string) 438%N (Some "Box<DoubleVotingProof<BlockNumberFor<T>, T::BeefyId,<T::BeefyId
as RuntimeAppPublic>::Signature,>,>"%string) []); (Field (Some "key_owner_proof"%string) 107%N (Some "T::KeyOwnerProof"%string) [])] 1%N []); (Variant "set_new_genesis"%string [(Field (Some "delay_in_blocks"%string) 4%N (Some "BlockNumberFor<T>"%string) [])] 2%N [])]) []).
Definition md_t438 : ty := 
 (Ty ["sp_consensus_beefy"%string; "DoubleVotingProof"%string] [("Number"%string,(Some 4%N)); ("Id"%string,(Some 138%N)); ("Signature"%string,(Some 439%N))] (TComposite [(Field (Some "first"%string) 440%N (Some "VoteMessage<Number, Id, Signature>"%string) []); (Field (Some "second"%string) 440%N (Some "VoteMessage<Number, Id, Signature>"%string) [])]) []).
Definition md_t439 : ty := 
 (Ty ["sp_consensus_beefy"%string; "ecdsa_crypto"%string; "Signature"%string] [] (TComposite [(Field None 182%N (Some "ecdsa::Signature"%string) [])]) []).
Definition md_t440 : ty := 
 (Ty ["sp_consensus_beefy"%string; "VoteMessage"%string] [("Number"%string,(Some 4%N)); ("Id"%string,(Some 138%N)); ("Signature"%string,(Some 439%N))] (TComposite [(Field (Some "commitment"%string) 441%N (Some "Commitment<Number>"%string) []); (Field (Some "id"%string) 138%N (Some "Id"%string) []); (Field (Some "signature"%string) 439%N (Some "Signature"%string) [])]) []).
Definition md_t441 : ty := 
 (Ty ["sp_consensus_beefy"%string; "commitment"%string; "Commitment"%string] [("TBlockNumber"%string,(Some 4%N))] (TComposite [(Field (Some "payload"%string) 442%N (Some "Payload"%string) []); (Field (Some "block_number"%string) 4%N (Some "TBlockNumber"%string) []); (Field (Some "validator_set_id"%string) 12%N (Some "ValidatorSetId"%string) [])]) []).
Definition md_t442 : ty := 
 (Ty ["sp_consensus_beefy"%string; "payload"%string; "Payload"%string] [] (TComposite [(Field None 443%N (Some "Vec<(BeefyPayloadId, Vec<u8>)>"%string) [])]) []).
Definition md_t443 : ty := 
 (Ty [] [] (TSequence 444%N) []).
Definition md_t444 : ty := 
 (Ty [] [] (TTuple [445%N; 14%N]) []).
Definition md_t445 : ty := 
 (Ty [] [] (TArray 2%N 2%N) []).
Definition md_t446 : ty := 
 (Ty ["sp_runtime"%string; "traits"%string; "BlakeTwo256"%string] [] (TComposite []) []).
Definition md_t447 : ty := 
 (Ty ["bounded_collections"%string; "bounded_vec"%string; "BoundedVec"%string] [("T"%string,(Some 2%N)); ("S"%string,None)] (TComposite [(Field None 14%N (Some "Vec<T>"%string) [])]) []).
Definition md_t448 : ty := 
 (Ty ["pallet_conviction_voting"%string; "types"%string; "Tally"%string] [("Votes"%string,(Some 6%N)); ("Total"%string,None)] (TComposite [(Field (Some "ayes"%string) 6%N (Some "Votes"%string) []); (Field (Some "nays"%string) 6%N (Some "Votes"%string) []); (Field (Some "support"%string) 6%N (Some "Votes"%string) [])]) []).
Definition md_t449 : ty := 
 (Ty ["pallet_whitelist"%string; "pallet"%string; "Event"%string] [("T"%string,None)] (TVariant [(Variant "CallWhitelisted"%string [(Field (Some "call_hash"%string) 13%N (Some "T::Hash"%string) [])] 0%N []); (Variant "WhitelistedCallRemoved"%string [(Field (Some "call_hash"%string) 13%N (Some "T::Hash"%string) [])] 1%N []); (Variant "WhitelistedCallDispatched"%string [(Field (Some "call_hash"%string) 13%N (Some "T::Hash"%string) []); (Field (Some "result"%string) 450%N (Some "DispatchResultWithPostInfo"%string) [])] 2%N [])]) []).
Definition md_t450 : ty := 
 (Ty ["Result"%string] [("T"%string,(Some 451%N)); ("E"%string,(Some 453%N))] (TVariant [(Variant "Ok"%string [(Field None 451%N None [])] 0%N []); (Variant "Err"%string [(Field None 453%N None [])] 1%N [])]) []).
Definition md_t451 : ty := 
 (Ty ["frame_support"%string; "dispatch"%string; "PostDispatchInfo"%string] [] (TComposite [(Field (Some "actual_weight"%string) 452%N (Some "Option<Weight>"%string) []); (Field (Some "pays_fee"%string) 25%N (Some "Pays"%string) [])]) []).
Definition md_t452 : ty := 
 (Ty ["Option"%string] [("T"%string,(Some 10%N))] (TVariant [(Variant "None"%string [] 0%N []); (Variant "Some"%string [(Field None 10%N None [])] 1%N [])]) []).
Definition md_t453 : ty := 
 (Ty ["sp_runtime"%string; "DispatchErrorWithPostInfo"%string] [("Info"%string,(Some 451%N))] (TComposite [(Field (Some "post_info"%string) 451%N (Some "Info"%string) []); (Field (Some "error"%string) 26%N (Some "DispatchError"%string) [])]) []).
Definition md_t454 : ty := 
 (Ty ["pallet_parameters"%string; "pallet"%string; "Event"%string] [("T"%string,None)] (TVariant [(Variant "Updated"%string [(Field (Some "key"%string) 455%N (Some "<T::RuntimeParameters as AggregatedKeyValue>::Key"%string) []); (Field (Some "old_value"%string) 457%N (Some "Option<<T::RuntimeParameters as AggregatedKeyValue>::Value>"%string) []); (Field (Some "new_value"%string) 457%N (Some "Option<<T::RuntimeParameters as AggregatedKeyValue>::Value>"%string) [])] 0%N [])]) []).
Definition md_t455 : ty := 
 (Ty ["polkadot_runtime"%string; "RuntimeParametersKey"%string] [] (TVariant [(Variant "Inflation"%string [(Field None 456%N (Some "<dynamic_params::inflation::Parameters as frame_support::traits::
dynamic_params::AggregatedKeyValue>::Key"%string) [])] 0%N [])]) []).
Definition md_t456 : ty := 
 (Ty ["polkadot_runtime"%string; "dynamic_params"%string; "inflation"%string; "ParametersKey"%string] [] (TVariant [(Variant "MinInflation"%string [(Field None 172%N (Some "MinInflation"%string) [])] 0%N []); (Variant "MaxInflation"%string [(Field None 175%N (Some "MaxInflation"%string) [])] 1%N []); (Variant "IdealStake"%string [(Field None 176%N (Some "IdealStake"%string) [])] 2%N []); (Variant "Falloff"%string [(Field None 177%N (Some "Falloff"%string) [])] 3%N []); (Variant "UseAuctionSlots"%string [(Field None 178%N (Some "UseAuctionSlots"%string) [])] 4%N [])]) []).
Definition md_t457 : ty := 
 (Ty ["Option"%string] [("T"%string,(Some 458%N))] (TVariant [(Variant "None"%string [] 0%N []); (Variant "Some"%string [(Field None 458%N None [])] 1%N [])]) []).
Definition md_t458 : ty := 
 (Ty ["polkadot_runtime"%string; "RuntimeParametersValue"%string] [] (TVariant [(Variant "Inflation"%string [(Field None 459%N (Some "<dynamic_params::inflation::Parameters as frame_support::traits::
dynamic_params::AggregatedKeyValue>::Value"%string) [])] 0%N [])]) []).
Definition md_t459 : ty := 
 (Ty ["polkadot_runtime"%string; "dynamic_params"%string; "inflation"%string; "ParametersValue"%string] [] (TVariant [(Variant "MinInflation"%string [(Field None 174%N (Some "Perquintill"%string) [])] 0%N []); (Variant "MaxInflation"%string [(Field None 174%N (Some "Perquintill"%string) [])] 1%N []); (Variant "IdealStake"%string [(Field None 174%N (Some "Perquintill"%string) [])] 2%N []); (Variant "Falloff"%string [(Field None 174%N (Some "Perquintill"%string) [])] 3%N []); (Variant "UseAuctionSlots"%string [(Field None 8%N (Some "bool"%string) [])] 4%N [])]) []).
Definition md_t460 : ty := 
 (Ty ["polkadot_runtime_common"%string; "claims"%string; "pallet"%string; "Event"%string] [("T"%string,None)] (TVariant [(Variant "Claimed"%string [(Field (Some "who"%string) 0%N (Some "T::AccountId"%string) []); (Field (Some "ethereum_address"%string) 183%N (Some "EthereumAddress"%string) []); (Field (Some "amount"%string) 6%N (Some "BalanceOf<T>"%string) [])] 0%N [])]) []).
Definition md_t461 : ty := 
 (Ty ["pallet_vesting"%string; "pallet"%string; "Event"%string] [("T"%string,None)] (TVariant [(Variant "VestingUpdated"%string [(Field (Some "account"%string) 0%N (Some "T::AccountId"%string) []); (Field (Some "unvested"%string) 6%N (Some "BalanceOf<T>"%string) [])] 0%N []); (Variant "VestingCompleted"%string [(Field (Some "account"%string) 0%N (Some "T::AccountId"%string) [])] 1%N [])]) []).
Definition md_t462 : ty := 
 (Ty ["pallet_utility"%string; "pallet"%string; "Event"%string] [] (TVariant [(Variant "BatchInterrupted"%string [(Field (Some "index"%string) 4%N (Some "u32"%string) []); (Field (Some "error"%string) 26%N (Some "DispatchError"%string) [])] 0%N []); (Variant "BatchCompleted"%string [] 1%N []); (Variant "BatchCompletedWithErrors"%string [] 2%N []); (Variant "ItemCompleted"%string [] 3%N []); (Variant "ItemFailed"%string [(Field (Some "error"%string) 26%N (Some "DispatchError"%string) [])] 4%N []); (Variant "DispatchedAs"%string [(Field (Some "result"%string) 34%N (Some "DispatchResult"%string) [])] 5%N [])]) []).
Definition md_t463 : ty := 
 (Ty ["pallet_proxy"%string; "pallet"%string; "Event"%string] [("T"%string,None)] (TVariant [(Variant "ProxyExecuted"%string [(Field (Some "result"%string) 34%N (Some "DispatchResult"%string) [])] 0%N []); (Variant "PureCreated"%string [(Field (Some "pure"%string) 0%N (Some "T::AccountId"%string) []); (Field (Some "who"%string) 0%N (Some "T::AccountId"%string) []); (Field (Some "proxy_type"%string) 194%N (Some "T::ProxyType"%string) []); (Field (Some "disambiguation_index"%string) 91%N (Some "u16"%string) [])] 1%N []); (Variant "Announced"%string [(Field (Some "real"%string) 0%N (Some "T::AccountId"%string) []); (Field (Some "proxy"%string) 0%N (Some "T::AccountId"%string) []); (Field (Some "call_hash"%string) 13%N (Some "CallHashOf<T>"%string) [])] 2%N []); (Variant "ProxyAdded"%string [(Field (Some "delegator"%string) 0%N (Some "T::AccountId"%string) []); (Field (Some "delegatee"%string) 0%N (Some "T::AccountId"%string) []); (Field (Some "proxy_type"%string) 194%N (Some "T::ProxyType"%string) []); (Field (Some "delay"%string) 4%N (Some "BlockNumberFor<T>"%string) [])] 3%N []); (Variant "ProxyRemoved"%string [(Field (Some "delegator"%string) 0%N (Some "T::AccountId"%string) []); (Field (Some "delegatee"%string) 0%N (Some "T::AccountId"%string) []); (Field (Some "proxy_type"%string) 194%N (Some "T::ProxyType"%string) []); (Field (Some "delay"%string) 4%N (Some "BlockNumberFor<T>"%string) [])] 4%N [])]) []).
Definition md_t464 : ty := 
 (Ty ["pallet_multisig"%string; "pallet"%string; "Event"%string] [("T"%string,None)] (TVariant [(Variant "NewMultisig"%string [(Field (Some "approving"%string) 0%N (Some "T::AccountId"%string) []); (Field (Some "multisig"%string) 0%N (Some "T::AccountId"%string) []); (Field (Some "call_hash"%string) 1%N (Some "CallHash"%string) [])] 0%N []); (Variant "MultisigApproval"%string [(Field (Some "approving"%string) 0%N (Some "T::AccountId"%string) []); (Field (Some "timepoint"%string) 197%N (Some "Timepoint<BlockNumberFor<T>>"%string) []); (Field (Some "multisig"%string) 0%N (Some "T::AccountId"%string) []); (Field (Some "call_hash"%string) 1%N (Some "CallHash"%string) [])] 1%N []); (Variant "MultisigExecuted"%string [(Field (Some "approving"%string) 0%N (Some "T::AccountId"%string) []); (Field (Some "timepoint"%string) 197%N (Some "Timepoint<BlockNumberFor<T>>"%string) []); (Field (Some "multisig"%string) 0%N (Some "T::AccountId"%string) []); (Field (Some "call_hash"%string) 1%N (Some "CallHash"%string) []); (Field (Some "result"%string) 34%N (Some "DispatchResult"%string) [])] 2%N []); (Variant "MultisigCancelled"%string [(Field (Some "cancelling"%string) 0%N (Some "T::AccountId"%string) []); (Field (Some "timepoint"%string) 197%N (Some "Timepoint<BlockNumberFor<T>>"%string) []); (Field (Some "multisig"%string) 0%N (Some "T::AccountId"%string) []); (Field (Some "call_hash"%string) 1%N (Some "CallHash"%string) [])] 3%N [])]) []).
Definition md_t465 : ty := 
 (Ty ["pallet_bounties"%string; "pallet"%string; "Event"%string] [("T"%string,None); ("I"%string,None)] (TVariant [(Variant "BountyProposed"%string [(Field (Some "index"%string) 4%N (Some "BountyIndex"%string) [])] 0%N []); (Variant "BountyRejected"%string [(Field (Some "index"%string) 4%N (Some "BountyIndex"%string) []); (Field (Some "bond"%string) 6%N (Some "BalanceOf<T, I>"%string) [])] 1%N []); (Variant "BountyBecameActive"%string [(Field (Some "index"%string) 4%N (Some "BountyIndex"%string) [])] 2%N []); (Variant "BountyAwarded"%string [(Field (Some "index"%string) 4%N (Some "BountyIndex"%string) []); (Field (Some "beneficiary"%string) 0%N (Some "T::AccountId"%string) [])] 3%N []); (Variant "BountyClaimed"%string [(Field (Some "index"%string) 4%N (Some "BountyIndex"%string) []); (Field (Some "payout"%string) 6%N (Some "BalanceOf<T, I>"%string) []); (Field (Some "beneficiary"%string) 0%N (Some "T::AccountId"%string) [])] 4%N []); (Variant "BountyCanceled"%string [(Field (Some "index"%string) 4%N (Some "BountyIndex"%string) [])] 5%N []); (Variant "BountyExtended"%string [(Field (Some "index"%string) 4%N (Some "BountyIndex"%string) [])] 6%N []); (Variant "BountyApproved"%string [(Field (Some "index"%string) 4%N (Some "BountyIndex"%string) [])] 7%N []); (Variant "CuratorProposed"%string [(Field (Some "bounty_id"%string) 4%N (Some "BountyIndex"%string) []); (Field (Some "curator"%string) 0%N (Some "T::AccountId"%string) [])] 8%N []); (Variant "CuratorUnassigned"%string [(Field (Some "bounty_id"%string) 4%N (Some "BountyIndex"%string) [])] 9%N []); (Variant "CuratorAccepted"%string [(Field (Some "bounty_id"%string) 4%N (Some "BountyIndex"%string) []); (Field (Some "curator"%string) 0%N (Some "T::AccountId"%string) [])] 10%N [])]) []).
Definition md_t466 : ty := 
 (Ty ["pallet_child_bounties"%string; "pallet"%string; "Event"%string] [("T"%string,None)] (TVariant [(Variant "Added"%string [(Field (Some "index"%string) 4%N (Some "BountyIndex"%string) []); (Field (Some "child_index"%string) 4%N (Some "BountyIndex"%string) [])] 0%N []); (Variant "Awarded"%string [(Field (Some "index"%string) 4%N (Some "BountyIndex"%string) []); (Field (Some "child_index"%string) 4%N (Some "BountyIndex"%string) []); (Field (Some "beneficiary"%string) 0%N (Some "T::AccountId"%string) [])] 1%N []); (Variant "Claimed"%string [(Field (Some "index"%string) 4%N (Some "BountyIndex"%string) []); (Field (Some "child_index"%string) 4%N (Some "BountyIndex"%string) []); (Field (Some "payout"%string) 6%N (Some "BalanceOf<T>"%string) []); (Field (Some "beneficiary"%string) 0%N (Some "T::AccountId"%string) [])] 2%N []); (Variant "Canceled"%string [(Field (Some "index"%string) 4%N (Some "BountyIndex"%string) []); (Field (Some "child_index"%string) 4%N (Some "BountyIndex"%string) [])] 3%N [])]) []).
Definition md_t467 : ty := 
 (Ty ["pallet_election_provider_multi_phase"%string; "pallet"%string; "Event"%string] [("T"%string,None)] (TVariant [(Variant "SolutionStored"%string [(Field (Some "compute"%string) 468%N (Some "ElectionCompute"%string) []); (Field (Some "origin"%string) 127%N (Some "Option<T::AccountId>"%string) []); (Field (Some "prev_ejected"%string) 8%N (Some "bool"%string) [])] 0%N []); (Variant "ElectionFinalized"%string [(Field (Some "compute"%string) 468%N (Some "ElectionCompute"%string) []); (Field (Some "score"%string) 253%N (Some "ElectionScore"%string) [])] 1%N []); (Variant "ElectionFailed"%string [] 2%N []); (Variant "Rewarded"%string [(Field (Some "account"%string) 0%N (Some "<T as frame_system::Config>::AccountId"%string) []); (Field (Some "value"%string) 6%N (Some "BalanceOf<T>"%string) [])] 3%N []); (Variant "Slashed"%string [(Field (Some "account"%string) 0%N (Some "<T as frame_system::Config>::AccountId"%string) []); (Field (Some "value"%string) 6%N (Some "BalanceOf<T>"%string) [])] 4%N []); (Variant "PhaseTransitioned"%string [(Field (Some "from"%string) 469%N (Some "Phase<BlockNumberFor<T>>"%string) []); (Field (Some "to"%string) 469%N (Some "Phase<BlockNumberFor<T>>"%string) []); (Field (Some "round"%string) 4%N (Some "u32"%string) [])] 5%N [])]) []).
Definition md_t468 : ty := 
 (Ty ["pallet_election_provider_multi_phase"%string; "ElectionCompute"%string] [] (TVariant [(Variant "OnChain"%string [] 0%N []); (Variant "Signed"%string [] 1%N []); (Variant "Unsigned"%string [] 2%N []); (Variant "Fallback"%string [] 3%N []); (Variant "Emergency"%string [] 4%N [])]) []).
Definition md_t469 : ty := 
 (Ty ["pallet_election_provider_multi_phase"%string; "Phase"%string] [("Bn"%string,(Some 4%N))] (TVariant [(Variant "Off"%string [] 0%N []); (Variant "Signed"%string [] 1%N []); (Variant "Unsigned"%string [(Field None 470%N (Some "(bool, Bn)"%string) [])] 2%N []); (Variant "Emergency"%string [] 3%N [])]) []).
Definition md_t470 : ty := 
 (Ty [] [] (TTuple [8%N; 4%N]) []).
Definition md_t471 : ty := 
 (Ty ["pallet_bags_list"%string; "pallet"%string; "Event"%string] [("T"%string,None); ("I"%string,None)] (TVariant [(Variant "Rebagged"%string [(Field (Some "who"%string) 0%N (Some "T::AccountId"%string) []); (Field (Some "from"%string) 12%N (Some "T::Score"%string) []); (Field (Some "to"%string) 12%N (Some "T::Score"%string) [])] 0%N []); (Variant "ScoreUpdated"%string [(Field (Some "who"%string) 0%N (Some "T::AccountId"%string) []); (Field (Some "new_score"%string) 12%N (Some "T::Score"%string) [])] 1%N [])]) []).
Definition md_t472 : ty := 
 (Ty ["pallet_nomination_pools"%string; "pallet"%string; "Event"%string] [("T"%string,None)] (TVariant [(Variant "Created"%string [(Field (Some "depositor"%string) 0%N (Some "T::AccountId"%string) []); (Field (Some "pool_id"%string) 4%N (Some "PoolId"%string) [])] 0%N []); (Variant "Bonded"%string [(Field (Some "member"%string) 0%N (Some "T::AccountId"%string) []); (Field (Some "pool_id"%string) 4%N (Some "PoolId"%string) []); (Field (Some "bonded"%string) 6%N (Some "BalanceOf<T>"%string) []); (Field (Some "joined"%string) 8%N (Some "bool"%string) [])] 1%N []); (Variant "PaidOut"%string [(Field (Some "member"%string) 0%N (Some "T::AccountId"%string) []); (Field (Some "pool_id"%string) 4%N (Some "PoolId"%string) []); (Field (Some "payout"%string) 6%N (Some "BalanceOf<T>"%string) [])] 2%N []); (Variant "Unbonded"%string [(Field (Some "member"%string) 0%N (Some "T::AccountId"%string) []); (Field (Some "pool_id"%string) 4%N (Some "PoolId"%string) []); (Field (Some "balance"%string) 6%N (Some "BalanceOf<T>"%string) []); (Field (Some "points"%string) 6%N (Some "BalanceOf<T>"%string) []); (Field (Some "era"%string) 4%N (Some "EraIndex"%string) [])] 3%N []); (Variant "Withdrawn"%string [(Field (Some "member"%string) 0%N (Some "T::AccountId"%string) []); (Field (Some "pool_id"%string) 4%N (Some "PoolId"%string) []); (Field (Some "balance"%string) 6%N (Some "BalanceOf<T>"%string) []); (Field (Some "points"%string) 6%N (Some "BalanceOf<T>"%string) [])] 4%N []); (Variant "Destroyed"%string [(Field (Some "pool_id"%string) 4%N (Some "PoolId"%string) [])] 5%N []); (Variant "StateChanged"%string [(Field (Some "pool_id"%string) 4%N (Some "PoolId"%string) []); (Field (Some "new_state"%string) 264%N (Some "PoolState"%string) [])] 6%N []); (Variant "MemberRemoved"%string [(Field (Some "pool_id"%string) 4%N (Some "PoolId"%string) []); (Field (Some "member"%string) 0%N (Some "T::AccountId"%string) [])] 7%N []); (Variant "RolesUpdated"%string [(Field (Some "root"%string) 127%N (Some "Option<T::AccountId>"%string) []); (Field (Some "bouncer"%string) 127%N (Some "Option<T::AccountId>"%string) []); (Field (Some "nominator"%string) 127%N (Some "Option<T::AccountId>"%string) [])] 8%N []); (Variant "PoolSlashed"%string [(Field (Some "pool_id"%string) 4%N (Some "PoolId"%string) []); (Field (Some "balance"%string) 6%N (Some "BalanceOf<T>"%string) [])] 9%N []); (Variant "UnbondingPoolSlashed"%string [(Field (Some "pool_id"%string) 4%N (Some "PoolId"%string) []); (Field (Some "era"%string) 4%N (Some "EraIndex"%string) []); (Field (Some "balance"%string) 6%N (Some "BalanceOf<T>"%string) [])] 10%N []); (Variant "PoolCommissionUpdated"%string [(Field (Some "pool_id"%string) 4%N (Some "PoolId"%string) []); (Field (Some "current"%string) 270%N (Some "Option<(Perbill, T::AccountId)>"%string) [])] 11%N []); (Variant "PoolMaxCommissionUpdated"%string [(Field (Some "pool_id"%string) 4%N (Some "PoolId"%string) []); (Field (Some "max_commission"%string) 43%N (Some "Perbill"%string) [])] 12%N []); (Variant "PoolCommissionChangeRateUpdated"%string [(Field (Some "pool_id"%string) 4%N (Some "PoolId"%string) []); (Field (Some "change_rate"%string) 272%N (Some "CommissionChangeRate<BlockNumberFor<T>>"%string) [])] 13%N []); (Variant "PoolCommissionClaimPermissionUpdated"%string [(Field (Some "pool_id"%string) 4%N (Some "PoolId"%string) []); (Field (Some "permission"%string) 273%N (Some "Option<CommissionClaimPermission<T::AccountId>>"%string) [])] 14%N []); (Variant "PoolCommissionClaimed"%string [(Field (Some "pool_id"%string) 4%N (Some "PoolId"%string) []); (Field (Some "commission"%string) 6%N (Some "BalanceOf<T>"%string) [])] 15%N []); (Variant "MinBalanceDeficitAdjusted"%string [(Field (Some "pool_id"%string) 4%N (Some "PoolId"%string) []); (Field (Some "amount"%string) 6%N (Some "BalanceOf<T>"%string) [])] 16%N []); (Variant "MinBalanceExcessAdjusted"%string [(Field (Some "pool_id"%string) 4%N (Some "PoolId"%string) []); (Field (Some "amount"%string) 6%N (Some "BalanceOf<T>"%string) [])] 17%N [])]) []).
Definition md_t473 : ty := 
 (Ty ["pallet_fast_unstake"%string; "pallet"%string; "Event"%string] [("T"%string,None)] (TVariant [(Variant "Unstaked"%string [(Field (Some "stash"%string) 0%N (Some "T::AccountId"%string) []); (Field (Some "result"%string) 34%N (Some "DispatchResult"%string) [])] 0%N []); (Variant "Slashed"%string [(Field (Some "stash"%string) 0%N (Some "T::AccountId"%string) []); (Field (Some "amount"%string) 6%N (Some "BalanceOf<T>"%string) [])] 1%N []); (Variant "BatchChecked"%string [(Field (Some "eras"%string) 121%N (Some "Vec<EraIndex>"%string) [])] 2%N []); (Variant "BatchFinished"%string [(Field (Some "size"%string) 4%N (Some "u32"%string) [])] 3%N []); (Variant "InternalError"%string [] 4%N [])]) []).
Definition md_t474 : ty := 
 (Ty ["polkadot_runtime_parachains"%string; "inclusion"%string; "pallet"%string; "Event"%string] [("T"%string,None)] (TVariant [(Variant "CandidateBacked"%string [(Field None 475%N (Some "CandidateReceipt<T::Hash>"%string) []); (Field None 310%N (Some "HeadData"%string) []); (Field None 476%N (Some "CoreIndex"%string) []); (Field None 477%N (Some "GroupIndex"%string) [])] 0%N []); (Variant "CandidateIncluded"%string [(Field None 475%N (Some "CandidateReceipt<T::Hash>"%string) []); (Field None 310%N (Some "HeadData"%string) []); (Field None 476%N (Some "CoreIndex"%string) []); (Field None 477%N (Some "GroupIndex"%string) [])] 1%N []); (Variant "CandidateTimedOut"%string [(Field None 475%N (Some "CandidateReceipt<T::Hash>"%string) []); (Field None 310%N (Some "HeadData"%string) []); (Field None 476%N (Some "CoreIndex"%string) [])] 2%N []); (Variant "UpwardMessagesReceived"%string [(Field (Some "from"%string) 163%N (Some "ParaId"%string) []); (Field (Some "count"%string) 4%N (Some "u32"%string) [])] 3%N [])]) []).
Definition md_t475 : ty := 
 (Ty ["polkadot_primitives"%string; "v7"%string; "CandidateReceipt"%string] [("H"%string,(Some 13%N))] (TComposite [(Field (Some "descriptor"%string) 299%N (Some "CandidateDescriptor<H>"%string) []); (Field (Some "commitments_hash"%string) 13%N (Some "Hash"%string) [])]) []).
Definition md_t476 : ty := 
 (Ty ["polkadot_primitives"%string; "v7"%string; "CoreIndex"%string] [] (TComposite [(Field None 4%N (Some "u32"%string) [])]) []).
Definition md_t477 : ty := 
 (Ty ["polkadot_primitives"%string; "v7"%string; "GroupIndex"%string] [] (TComposite [(Field None 4%N (Some "u32"%string) [])]) []).
Definition md_t478 : ty := 
 (Ty ["polkadot_runtime_parachains"%string; "paras"%string; "pallet"%string; "Event"%string] [] (TVariant [(Variant "CurrentCodeUpdated"%string [(Field None 163%N (Some "ParaId"%string) [])] 0%N []); (Variant "CurrentHeadUpdated"%string [(Field None 163%N (Some "ParaId"%string) [])] 1%N []); (Variant "CodeUpgradeScheduled"%string [(Field None 163%N (Some "ParaId"%string) [])] 2%N []); (Variant "NewHeadNoted"%string [(Field None 163%N (Some "ParaId"%string) [])] 3%N []); (Variant "ActionQueued"%string [(Field None 163%N (Some "ParaId"%string) []); (Field None 4%N (Some "SessionIndex"%string) [])] 4%N []); (Variant "PvfCheckStarted"%string [(Field None 302%N (Some "ValidationCodeHash"%string) []); (Field None 163%N (Some "ParaId"%string) [])] 5%N []); (Variant "PvfCheckAccepted"%string [(Field None 302%N (Some "ValidationCodeHash"%string) []); (Field None 163%N (Some "ParaId"%string) [])] 6%N []); (Variant "PvfCheckRejected"%string [(Field None 302%N (Some "ValidationCodeHash"%string) []); (Field None 163%N (Some "ParaId"%string) [])] 7%N [])]) []).
Definition md_t479 : ty := 
 (Ty ["polkadot_runtime_parachains"%string; "hrmp"%string; "pallet"%string; "Event"%string] [("T"%string,None)] (TVariant [(Variant "OpenChannelRequested"%string [(Field (Some "sender"%string) 163%N (Some "ParaId"%string) []); (Field (Some "recipient"%string) 163%N (Some "ParaId"%string) []); (Field (Some "proposed_max_capacity"%string) 4%N (Some "u32"%string) []); (Field (Some "proposed_max_message_size"%string) 4%N (Some "u32"%string) [])] 0%N []); (Variant "OpenChannelCanceled"%string [(Field (Some "by_parachain"%string) 163%N (Some "ParaId"%string) []); (Field (Some "channel_id"%string) 326%N (Some "HrmpChannelId"%string) [])] 1%N []); (Variant "OpenChannelAccepted"%string [(Field (Some "sender"%string) 163%N (Some "ParaId"%string) []); (Field (Some "recipient"%string) 163%N (Some "ParaId"%string) [])] 2%N []); (Variant "ChannelClosed"%string [(Field (Some "by_parachain"%string) 163%N (Some "ParaId"%string) []); (Field (Some "channel_id"%string) 326%N (Some "HrmpChannelId"%string) [])] 3%N []); (Variant "HrmpChannelForceOpened"%string [(Field (Some "sender"%string) 163%N (Some "ParaId"%string) []); (Field (Some "recipient"%string) 163%N (Some "ParaId"%string) []); (Field (Some "proposed_max_capacity"%string) 4%N (Some "u32"%string) []); (Field (Some "proposed_max_message_size"%string) 4%N (Some "u32"%string) [])] 4%N []); (Variant "HrmpSystemChannelOpened"%string [(Field (Some "sender"%string) 163%N (Some "ParaId"%string) []); (Field (Some "recipient"%string) 163%N (Some "ParaId"%string) []); (Field (Some "proposed_max_capacity"%string) 4%N (Some "u32"%string) []); (Field (Some "proposed_max_message_size"%string) 4%N (Some "u32"%string) [])] 5%N []); (Variant "OpenChannelDepositsUpdated"%string [(Field (Some "sender"%string) 163%N (Some "ParaId"%string) []); (Field (Some "recipient"%string) 163%N (Some "ParaId"%string) [])] 6%N [])]) []).
Definition md_t480 : ty := 
 (Ty ["polkadot_runtime_parachains"%string; "disputes"%string; "pallet"%string; "Event"%string] [("T"%string,None)] (TVariant [(Variant "DisputeInitiated"%string [(Field None 315%N (Some "CandidateHash"%string) []); (Field None 481%N (Some "DisputeLocation"%string) [])] 0%N []); (Variant "DisputeConcluded"%string [(Field None 315%N (Some "CandidateHash"%string) []); (Field None 482%N (Some "DisputeResult"%string) [])] 1%N []); (Variant "Revert"%string [(Field None 4%N (Some "BlockNumberFor<T>"%string) [])] 2%N [])]) []).
Definition md_t481 : ty := 
 (Ty ["polkadot_runtime_parachains"%string; "disputes"%string; "DisputeLocation"%string] [] (TVariant [(Variant "Local"%string [] 0%N []); (Variant "Remote"%string [] 1%N [])]) []).
Definition md_t482 : ty := 
 (Ty ["polkadot_runtime_parachains"%string; "disputes"%string; "DisputeResult"%string] [] (TVariant [(Variant "Valid"%string [] 0%N []); (Variant "Invalid"%string [] 1%N [])]) []).
Definition md_t483 : ty := 
 (Ty ["polkadot_runtime_parachains"%string; "assigner_on_demand"%string; "pallet"%string; "Event"%string] [("T"%string,None)] (TVariant [(Variant "OnDemandOrderPlaced"%string [(Field (Some "para_id"%string) 163%N (Some "ParaId"%string) []); (Field (Some "spot_price"%string) 6%N (Some "BalanceOf<T>"%string) []); (Field (Some "ordered_by"%string) 0%N (Some "T::AccountId"%string) [])] 0%N []); (Variant "SpotPriceSet"%string [(Field (Some "spot_price"%string) 6%N (Some "BalanceOf<T>"%string) [])] 1%N [])]) []).
Definition md_t484 : ty := 
 (Ty ["polkadot_runtime_common"%string; "paras_registrar"%string; "pallet"%string; "Event"%string] [("T"%string,None)] (TVariant [(Variant "Registered"%string [(Field (Some "para_id"%string) 163%N (Some "ParaId"%string) []); (Field (Some "manager"%string) 0%N (Some "T::AccountId"%string) [])] 0%N []); (Variant "Deregistered"%string [(Field (Some "para_id"%string) 163%N (Some "ParaId"%string) [])] 1%N []); (Variant "Reserved"%string [(Field (Some "para_id"%string) 163%N (Some "ParaId"%string) []); (Field (Some "who"%string) 0%N (Some "T::AccountId"%string) [])] 2%N []); (Variant "Swapped"%string [(Field (Some "para_id"%string) 163%N (Some "ParaId"%string) []); (Field (Some "other_id"%string) 163%N (Some "ParaId"%string) [])] 3%N [])]) []).
Definition md_t485 : ty := 
 (Ty ["polkadot_runtime_common"%string; "slots"%string; "pallet"%string; "Event"%string] [("T"%string,None)] (TVariant [(Variant "NewLeasePeriod"%string [(Field (Some "lease_period"%string) 4%N (Some "LeasePeriodOf<T>"%string) [])] 0%N []); (Variant "Leased"%string [(Field (Some "para_id"%string) 163%N (Some "ParaId"%string) []); (Field (Some "leaser"%string) 0%N (Some "T::AccountId"%string) []); (Field (Some "period_begin"%string) 4%N (Some "LeasePeriodOf<T>"%string) []); (Field (Some "period_count"%string) 4%N (Some "LeasePeriodOf<T>"%string) []); (Field (Some "extra_reserved"%string) 6%N (Some "BalanceOf<T>"%string) []); (Field (Some "total_amount"%string) 6%N (Some "BalanceOf<T>"%string) [])] 1%N [])]) []).
Definition md_t486 : ty := 
 (Ty ["polkadot_runtime_common"%string; "auctions"%string; "pallet"%string; "Event"%string] [("T"%string,None)] (TVariant [(Variant "AuctionStarted"%string [(Field (Some "auction_index"%string) 4%N (Some "AuctionIndex"%string) []); (Field (Some "lease_period"%string) 4%N (Some "LeasePeriodOf<T>"%string) []); (Field (Some "ending"%string) 4%N (Some "BlockNumberFor<T>"%string) [])] 0%N []); (Variant "AuctionClosed"%string [(Field (Some "auction_index"%string) 4%N (Some "AuctionIndex"%string) [])] 1%N []); (Variant "Reserved"%string [(Field (Some "bidder"%string) 0%N (Some "T::AccountId"%string) []); (Field (Some "extra_reserved"%string) 6%N (Some "BalanceOf<T>"%string) []); (Field (Some "total_amount"%string) 6%N (Some "BalanceOf<T>"%string) [])] 2%N []); (Variant "Unreserved"%string [(Field (Some "bidder"%string) 0%N (Some "T::AccountId"%string) []); (Field (Some "amount"%string) 6%N (Some "BalanceOf<T>"%string) [])] 3%N []); (Variant "ReserveConfiscated"%string [(Field (Some "para_id"%string) 163%N (Some "ParaId"%string) []); (Field (Some "leaser"%string) 0%N (Some "T::AccountId"%string) []); (Field (Some "amount"%string) 6%N (Some "BalanceOf<T>"%string) [])] 4%N []); (Variant "BidAccepted"%string [(Field (Some "bidder"%string) 0%N (Some "T::AccountId"%string) []); (Field (Some "para_id"%string) 163%N (Some "ParaId"%string) []); (Field (Some "amount"%string) 6%N (Some "BalanceOf<T>"%string) []); (Field (Some "first_slot"%string) 4%N (Some "LeasePeriodOf<T>"%string) []); (Field (Some "last_slot"%string) 4%N (Some "LeasePeriodOf<T>"%string) [])] 5%N []); (Variant "WinningOffset"%string [(Field (Some "auction_index"%string) 4%N (Some "AuctionIndex"%string) []); (Field (Some "block_number"%string) 4%N (Some "BlockNumberFor<T>"%string) [])] 6%N [])]) []).
Definition md_t487 : ty := 
 (Ty ["polkadot_runtime_common"%string; "crowdloan"%string; "pallet"%string; "Event"%string] [("T"%string,None)] (TVariant [(Variant "Created"%string [(Field (Some "para_id"%string) 163%N (Some "ParaId"%string) [])] 0%N []); (Variant "Contributed"%string [(Field (Some "who"%string) 0%N (Some "T::AccountId"%string) []); (Field (Some "fund_index"%string) 163%N (Some "ParaId"%string) []); (Field (Some "amount"%string) 6%N (Some "BalanceOf<T>"%string) [])] 1%N []); (Variant "Withdrew"%string [(Field (Some "who"%string) 0%N (Some "T::AccountId"%string) []); (Field (Some "fund_index"%string) 163%N (Some "ParaId"%string) []); (Field (Some "amount"%string) 6%N (Some "BalanceOf<T>"%string) [])] 2%N []); (Variant "PartiallyRefunded"%string [(Field (Some "para_id"%string) 163%N (Some "ParaId"%string) [])] 3%N []); (Variant "AllRefunded"%string [(Field (Some "para_id"%string) 163%N (Some "ParaId"%string) [])] 4%N []); (Variant "Dissolved"%string [(Field (Some "para_id"%string) 163%N (Some "ParaId"%string) [])] 5%N []); (Variant "HandleBidResult"%string [(Field (Some "para_id"%string) 163%N (Some "ParaId"%string) []); (Field (Some "result"%string) 34%N (Some "DispatchResult"%string) [])] 6%N []); (Variant "Edited"%string [(Field (Some "para_id"%string) 163%N (Some "ParaId"%string) [])] 7%N []); (Variant "MemoUpdated"%string [(Field (Some "who"%string) 0%N (Some "T::AccountId"%string) []); (Field (Some "para_id"%string) 163%N (Some "ParaId"%string) []); (Field (Some "memo"%string) 14%N (Some "Vec<u8>"%string) [])] 8%N []); (Variant "AddedToNewRaise"%string [(Field (Some "para_id"%string) 163%N (Some "ParaId"%string) [])] 9%N [])]) []).
Definition md_t488 : ty := 
 (Ty ["polkadot_runtime_parachains"%string; "coretime"%string; "pallet"%string; "Event"%string] [("T"%string,None)] (TVariant [(Variant "RevenueInfoRequested"%string [(Field (Some "when"%string) 4%N (Some "BlockNumberFor<T>"%string) [])] 0%N []); (Variant "CoreAssigned"%string [(Field (Some "core"%string) 476%N (Some "CoreIndex"%string) [])] 1%N [])]) []).
Definition md_t489 : ty := 
 (Ty ["pallet_state_trie_migration"%string; "pallet"%string; "Event"%string] [("T"%string,None)] (TVariant [(Variant "Migrated"%string [(Field (Some "top"%string) 4%N (Some "u32"%string) []); (Field (Some "child"%string) 4%N (Some "u32"%string) []); (Field (Some "compute"%string) 490%N (Some "MigrationCompute"%string) [])] 0%N []); (Variant "Slashed"%string [(Field (Some "who"%string) 0%N (Some "T::AccountId"%string) []); (Field (Some "amount"%string) 6%N (Some "BalanceOf<T>"%string) [])] 1%N []); (Variant "AutoMigrationFinished"%string [] 2%N []); (Variant "Halted"%string [(Field (Some "error"%string) 491%N (Some "Error<T>"%string) [])] 3%N [])]) []).
Definition md_t490 : ty := 
 (Ty ["pallet_state_trie_migration"%string; "pallet"%string; "MigrationCompute"%string] [] (TVariant [(Variant "Signed"%string [] 0%N []); (Variant "Auto"%string [] 1%N [])]) []).
Definition md_t491 : ty := 
 (Ty ["pallet_state_trie_migration"%string; "pallet"%string; "Error"%string] [("T"%string,None)] (TVariant [(Variant "MaxSignedLimits"%string [] 0%N []); (Variant "KeyTooLong"%string [] 1%N []); (Variant "NotEnoughFunds"%string [] 2%N []); (Variant "BadWitness"%string [] 3%N []); (Variant "SignedMigrationNotAllowed"%string [] 4%N []); (Variant "BadChildRoot"%string [] 5%N [])]) []).
Definition md_t492 : ty := 
 (Ty ["pallet_xcm"%string; "pallet"%string; "Event"%string] [("T"%string,None)] (TVariant [(Variant "Attempted"%string [(Field (Some "outcome"%string) 493%N (Some "xcm::latest::Outcome"%string) [])] 0%N []); (Variant "Sent"%string [(Field (Some "origin"%string) 67%N (Some "Location"%string) []); (Field (Some "destination"%string) 67%N (Some "Location"%string) []); (Field (Some "message"%string) 400%N (Some "Xcm<()>"%string) []); (Field (Some "message_id"%string) 1%N (Some "XcmHash"%string) [])] 1%N []); (Variant "UnexpectedResponse"%string [(Field (Some "origin"%string) 67%N (Some "Location"%string) []); (Field (Some "query_id"%string) 12%N (Some "QueryId"%string) [])] 2%N []); (Variant "ResponseReady"%string [(Field (Some "query_id"%string) 12%N (Some "QueryId"%string) []); (Field (Some "response"%string) 408%N (Some "Response"%string) [])] 3%N []); (Variant "Notified"%string [(Field (Some "query_id"%string) 12%N (Some "QueryId"%string) []); (Field (Some "pallet_index"%string) 2%N (Some "u8"%string) []); (Field (Some "call_index"%string) 2%N (Some "u8"%string) [])] 4%N []); (Variant "NotifyOverweight"%string [(Field (Some "query_id"%string) 12%N (Some "QueryId"%string) []); (Field (Some "pallet_index"%string) 2%N (Some "u8"%string) []); (Field (Some "call_index"%string) 2%N (Some "u8"%string) []); (Field (Some "actual_weight"%string) 10%N (Some "Weight"%string) []); (Field (Some "max_budgeted_weight"%string) 10%N (Some "Weight"%string) [])] 5%N []); (Variant "NotifyDispatchError"%string [(Field (Some "query_id"%string) 12%N (Some "QueryId"%string) []); (Field (Some "pallet_index"%string) 2%N (Some "u8"%string) []); (Field (Some "call_index"%string) 2%N (Some "u8"%string) [])] 6%N []); (Variant "NotifyDecodeFailed"%string [(Field (Some "query_id"%string) 12%N (Some "QueryId"%string) []); (Field (Some "pallet_index"%string) 2%N (Some "u8"%string) []); (Field (Some "call_index"%string) 2%N (Some "u8"%string) [])] 7%N []); (Variant "InvalidResponder"%string [(Field (Some "origin"%string) 67%N (Some "Location"%string) []); (Field (Some "query_id"%string) 12%N (Some "QueryId"%string) []); (Field (Some "expected_location"%string) 413%N (Some "Option<Location>"%string) [])] 8%N []); (Variant "InvalidResponderVersion"%string [(Field (Some "origin"%string) 67%N (Some "Location"%string) []); (Field (Some "query_id"%string) 12%N (Some "QueryId"%string) [])] 9%N []); (Variant "ResponseTaken"%string [(Field (Some "query_id"%string) 12%N (Some "QueryId"%string) [])] 10%N []); (Variant "AssetsTrapped"%string [(Field (Some "hash"%string) 13%N (Some "H256"%string) []); (Field (Some "origin"%string) 67%N (Some "Location"%string) []); (Field (Some "assets"%string) 418%N (Some "VersionedAssets"%string) [])] 11%N []); (Variant "VersionChangeNotified"%string [(Field (Some "destination"%string) 67%N (Some "Location"%string) []); (Field (Some "result"%string) 4%N (Some "XcmVersion"%string) []); (Field (Some "cost"%string) 403%N (Some "Assets"%string) []); (Field (Some "message_id"%string) 1%N (Some "XcmHash"%string) [])] 12%N []); (Variant "SupportedVersionChanged"%string [(Field (Some "location"%string) 67%N (Some "Location"%string) []); (Field (Some "version"%string) 4%N (Some "XcmVersion"%string) [])] 13%N []); (Variant "NotifyTargetSendFail"%string [(Field (Some "location"%string) 67%N (Some "Location"%string) []); (Field (Some "query_id"%string) 12%N (Some "QueryId"%string) []); (Field (Some "error"%string) 386%N (Some "XcmError"%string) [])] 14%N []); (Variant "NotifyTargetMigrationFail"%string [(Field (Some "location"%string) 81%N (Some "VersionedLocation"%string) []); (Field (Some "query_id"%string) 12%N (Some "QueryId"%string) [])] 15%N []); (Variant "InvalidQuerierVersion"%string [(Field (Some "origin"%string) 67%N (Some "Location"%string) []); (Field (Some "query_id"%string) 12%N (Some "QueryId"%string) [])] 16%N []); (Variant "InvalidQuerier"%string [(Field (Some "origin"%string) 67%N (Some "Location"%string) []); (Field (Some "query_id"%string) 12%N (Some "QueryId"%string) []); (Field (Some "expected_querier"%string) 67%N (Some "Location"%string) []); (Field (Some "maybe_actual_querier"%string) 413%N (Some "Option<Location>"%string) [])] 17%N []); (Variant "VersionNotifyStarted"%string [(Field (Some "destination"%string) 67%N (Some "Location"%string) []); (Field (Some "cost"%string) 403%N (Some "Assets"%string) []); (Field (Some "message_id"%string) 1%N (Some "XcmHash"%string) [])] 18%N []); (Variant "VersionNotifyRequested"%string [(Field (Some "destination"%string) 67%N (Some "Location"%string) []); (Field (Some "cost"%string) 403%N (Some "Assets"%string) []); (Field (Some "message_id"%string) 1%N (Some "XcmHash"%string) [])] 19%N []); (Variant "VersionNotifyUnrequested"%string [(Field (Some "destination"%string) 67%N (Some "Location"%string) []); (Field (Some "cost"%string) 403%N (Some "Assets"%string) []); (Field (Some "message_id"%string) 1%N (Some "XcmHash"%string) [])] 20%N []); (Variant "FeesPaid"%string [(Field (Some "paying"%string) 67%N (Some "Location"%string) []); (Field (Some "fees"%string) 403%N (Some "Assets"%string) [])] 21%N []); (Variant "AssetsClaimed"%string [(Field (Some "hash"%string) 13%N (Some "H256"%string) []); (Field (Some "origin"%string) 67%N (Some "Location"%string) []); (Field (Some "assets"%string) 418%N (Some "VersionedAssets"%string) [])] 22%N []); (Variant "VersionMigrationFinished"%string [(Field (Some "version"%string) 4%N (Some "XcmVersion"%string) [])] 23%N [])]) []).
Definition md_t493 : ty := 
 (Ty ["staging_xcm"%string; "v4"%string; "traits"%string; "Outcome"%string] [] (TVariant [(Variant "Complete"%string [(Field (Some "used"%string) 10%N (Some "Weight"%string) [])] 0%N []); (Variant "Incomplete"%string [(Field (Some "used"%string) 10%N (Some "Weight"%string) []); (Field (Some "error"%string) 386%N (Some "Error"%string) [])] 1%N []); (Variant "Error"%string [(Field (Some "error"%string) 386%N (Some "Error"%string) [])] 2%N [])]) []).
Definition md_t494 : ty := 
 (Ty ["pallet_message_queue"%string; "pallet"%string; "Event"%string] [("T"%string,None)] (TVariant [(Variant "ProcessingFailed"%string [(Field (Some "id"%string) 13%N (Some "H256"%string) []); (Field (Some "origin"%string) 433%N (Some "MessageOriginOf<T>"%string) []); (Field (Some "error"%string) 495%N (Some "ProcessMessageError"%string) [])] 0%N []); (Variant "Processed"%string [(Field (Some "id"%string) 13%N (Some "H256"%string) []); (Field (Some "origin"%string) 433%N (Some "MessageOriginOf<T>"%string) []); (Field (Some "weight_used"%string) 10%N (Some "Weight"%string) []); (Field (Some "success"%string) 8%N (Some "bool"%string) [])] 1%N []); (Variant "OverweightEnqueued"%string [(Field (Some "id"%string) 1%N (Some "[u8; 32]"%string) []); (Field (Some "origin"%string) 433%N (Some "MessageOriginOf<T>"%string) []); (Field (Some "page_index"%string) 4%N (Some "PageIndex"%string) []); (Field (Some "message_index"%string) 4%N (Some "T::Size"%string) [])] 2%N []); (Variant "PageReaped"%string [(Field (Some "origin"%string) 433%N (Some "MessageOriginOf<T>"%string) []); (Field (Some "index"%string) 4%N (Some "PageIndex"%string) [])] 3%N [])]) []).
Definition md_t495 : ty := 
 (Ty ["frame_support"%string; "traits"%string; "messages"%string; "ProcessMessageError"%string] [] (TVariant [(Variant "BadFormat"%string [] 0%N []); (Variant "Corrupt"%string [] 1%N []); (Variant "Unsupported"%string [] 2%N []); (Variant "Overweight"%string [(Field None 10%N (Some "Weight"%string) [])] 3%N []); (Variant "Yield"%string [] 4%N []); (Variant "StackLimitReached"%string [] 5%N [])]) []).
Definition md_t496 : ty := 
 (Ty ["pallet_asset_rate"%string; "pallet"%string; "Event"%string] [("T"%string,None)] (TVariant [(Variant "AssetRateCreated"%string [(Field (Some "asset_kind"%string) 55%N (Some "T::AssetKind"%string) []); (Field (Some "rate"%string) 436%N (Some "FixedU128"%string) [])] 0%N []); (Variant "AssetRateRemoved"%string [(Field (Some "asset_kind"%string) 55%N (Some "T::AssetKind"%string) [])] 1%N []); (Variant "AssetRateUpdated"%string [(Field (Some "asset_kind"%string) 55%N (Some "T::AssetKind"%string) []); (Field (Some "old"%string) 436%N (Some "FixedU128"%string) []); (Field (Some "new"%string) 436%N (Some "FixedU128"%string) [])] 2%N [])]) []).
Definition md_t497 : ty := 
 (Ty ["frame_system"%string; "Phase"%string] [] (TVariant [(Variant "ApplyExtrinsic"%string [(Field None 4%N (Some "u32"%string) [])] 0%N []); (Variant "Finalization"%string [] 1%N []); (Variant "Initialization"%string [] 2%N [])]) []).
Definition md_t498 : ty := 
 (Ty [] [] (TSequence 32%N) []).
Definition md_t499 : ty := 
 (Ty ["frame_system"%string; "LastRuntimeUpgradeInfo"%string] [] (TComposite [(Field (Some "spec_version"%string) 59%N (Some "codec::Compact<u32>"%string) []); (Field (Some "spec_name"%string) 500%N (Some "sp_runtime::RuntimeString"%string) [])]) []).
Definition md_t500 : ty := 
 (Ty [] [] (TPrimitive PrStr) []).
Definition md_t501 : ty := 
 (Ty ["frame_system"%string; "CodeUpgradeAuthorization"%string] [("T"%string,None)] (TComposite [(Field (Some "code_hash"%string) 13%N (Some "T::Hash"%string) []); (Field (Some "check_version"%string) 8%N (Some "bool"%string) [])]) []).
Definition md_t502 : ty := 
 (Ty ["frame_system"%string; "limits"%string; "BlockWeights"%string] [] (TComposite [(Field (Some "base_block"%string) 10%N (Some "Weight"%string) []); (Field (Some "max_block"%string) 10%N (Some "Weight"%string) []); (Field (Some "per_class"%string) 503%N (Some "PerDispatchClass<WeightsPerClass>"%string) [])]) []).
Definition md_t503 : ty := 
 (Ty ["frame_support"%string; "dispatch"%string; "PerDispatchClass"%string] [("T"%string,(Some 504%N))] (TComposite [(Field (Some "normal"%string) 504%N (Some "T"%string) []); (Field (Some "operational"%string) 504%N (Some "T"%string) []); (Field (Some "mandatory"%string) 504%N (Some "T"%string) [])]) []).
Definition md_t504 : ty := 
 (Ty ["frame_system"%string; "limits"%string; "WeightsPerClass"%string] [] (TComposite [(Field (Some "base_extrinsic"%string) 10%N (Some "Weight"%string) []); (Field (Some "max_extrinsic"%string) 452%N (Some "Option<Weight>"%string) []); (Field (Some "max_total"%string) 452%N (Some "Option<Weight>"%string) []); (Field (Some "reserved"%string) 452%N (Some "Option<Weight>"%string) [])]) []).
Definition md_t505 : ty := 
 (Ty ["frame_system"%string; "limits"%string; "BlockLength"%string] [] (TComposite [(Field (Some "max"%string) 506%N (Some "PerDispatchClass<u32>"%string) [])]) []).
Definition md_t506 : ty := 
 (Ty ["frame_support"%string; "dispatch"%string; "PerDispatchClass"%string] [("T"%string,(Some 4%N))] (TComposite [(Field (Some "normal"%string) 4%N (Some "T"%string) []); (Field (Some "operational"%string) 4%N (Some "T"%string) []); (Field (Some "mandatory"%string) 4%N (Some "T"%string) [])]) []).
Definition md_t507 : ty := 
 (Ty ["sp_weights"%string; "RuntimeDbWeight"%string] [] (TComposite [(Field (Some "read"%string) 12%N (Some "u64"%string) []); (Field (Some "write"%string) 12%N (Some "u64"%string) [])]) []).
Definition md_t508 : ty := 
 (Ty ["sp_version"%string; "RuntimeVersion"%string] [] (TComposite [(Field (Some "spec_name"%string) 500%N (Some "RuntimeString"%string) []); (Field (Some "impl_name"%string) 500%N (Some "RuntimeString"%string) []); (Field (Some "authoring_version"%string) 4%N (Some "u32"%string) []); (Field (Some "spec_version"%string) 4%N (Some "u32"%string) []); (Field (Some "impl_version"%string) 4%N (Some "u32"%string) []); (Field (Some "apis"%string) 509%N (Some "ApisVec"%string) []); (Field (Some "transaction_version"%string) 4%N (Some "u32"%string) []); (Field (Some "state_version"%string) 2%N (Some "u8"%string) [])]) []).
Definition md_t509 : ty := 
 (Ty ["Cow"%string] [("T"%string,(Some 510%N))] (TComposite [(Field None 510%N None [])]) []).
Definition md_t510 : ty := 
 (Ty [] [] (TSequence 511%N) []).
Definition md_t511 : ty := 
 (Ty [] [] (TTuple [364%N; 4%N]) []).
Definition md_t512 : ty := 
 (Ty ["frame_system"%string; "pallet"%string; "Error"%string] [("T"%string,None)] (TVariant [(Variant "InvalidSpecName"%string [] 0%N []); (Variant "SpecVersionNeedsToIncrease"%string [] 1%N []); (Variant "FailedToExtractRuntimeVersion"%string [] 2%N []); (Variant "NonDefaultComposite"%string [] 3%N []); (Variant "NonZeroRefCount"%string [] 4%N []); (Variant "CallFiltered"%string [] 5%N []); (Variant "MultiBlockMigrationsOngoing"%string [] 6%N []); (Variant "NothingAuthorized"%string [] 7%N []); (Variant "Unauthorized"%string [] 8%N [])]) []).
Definition md_t513 : ty := 
 (Ty ["bounded_collections"%string; "bounded_vec"%string; "BoundedVec"%string] [("T"%string,(Some 514%N)); ("S"%string,None)] (TComposite [(Field None 516%N (Some "Vec<T>"%string) [])]) []).
Definition md_t514 : ty := 
 (Ty ["Option"%string] [("T"%string,(Some 515%N))] (TVariant [(Variant "None"%string [] 0%N []); (Variant "Some"%string [(Field None 515%N None [])] 1%N [])]) []).
Definition md_t515 : ty := 
 (Ty ["pallet_scheduler"%string; "Scheduled"%string] [("Name"%string,(Some 1%N)); ("Call"%string,(Some 92%N)); ("BlockNumber"%string,(Some 4%N)); ("PalletsOrigin"%string,(Some 159%N)); ("AccountId"%string,(Some 0%N))] (TComposite [(Field (Some "maybe_id"%string) 33%N (Some "Option<Name>"%string) []); (Field (Some "priority"%string) 2%N (Some "schedule::Priority"%string) []); (Field (Some "call"%string) 92%N (Some "Call"%string) []); (Field (Some "maybe_periodic"%string) 99%N (Some "Option<schedule::Period<BlockNumber>>"%string) []); (Field (Some "origin"%string) 159%N (Some "PalletsOrigin"%string) [])]) []).
Definition md_t516 : ty := 
 (Ty [] [] (TSequence 514%N) []).
Definition md_t517 : ty := 
 (Ty ["pallet_scheduler"%string; "RetryConfig"%string] [("Period"%string,(Some 4%N))] (TComposite [(Field (Some "total_retries"%string) 2%N (Some "u8"%string) []); (Field (Some "remaining"%string) 2%N (Some "u8"%string) []); (Field (Some "period"%string) 4%N (Some "Period"%string) [])]) []).
Definition md_t518 : ty := 
 (Ty ["pallet_scheduler"%string; "pallet"%string; "Error"%string] [("T"%string,None)] (TVariant [(Variant "FailedToSchedule"%string [] 0%N []); (Variant "NotFound"%string [] 1%N []); (Variant "TargetBlockNumberInPast"%string [] 2%N []); (Variant "RescheduleNoChange"%string [] 3%N []); (Variant "Named"%string [] 4%N [])]) []).
Definition md_t519 : ty := 
 (Ty ["pallet_preimage"%string; "OldRequestStatus"%string] [("AccountId"%string,(Some 0%N)); ("Balance"%string,(Some 6%N))] (TVariant [(Variant "Unrequested"%string [(Field (Some "deposit"%string) 260%N (Some "(AccountId, Balance)"%string) []); (Field (Some "len"%string) 4%N (Some "u32"%string) [])] 0%N []); (Variant "Requested"%string [(Field (Some "deposit"%string) 520%N (Some "Option<(AccountId, Balance)>"%string) []); (Field (Some "count"%string) 4%N (Some "u32"%string) []); (Field (Some "len"%string) 152%N (Some "Option<u32>"%string) [])] 1%N [])]) []).
Definition md_t520 : ty := 
 (Ty ["Option"%string] [("T"%string,(Some 260%N))] (TVariant [(Variant "None"%string [] 0%N []); (Variant "Some"%string [(Field None 260%N None [])] 1%N [])]) []).
Definition md_t521 : ty := 
 (Ty ["pallet_preimage"%string; "RequestStatus"%string] [("AccountId"%string,(Some 0%N)); ("Ticket"%string,(Some 522%N))] (TVariant [(Variant "Unrequested"%string [(Field (Some "ticket"%string) 523%N (Some "(AccountId, Ticket)"%string) []); (Field (Some "len"%string) 4%N (Some "u32"%string) [])] 0%N []); (Variant "Requested"%string [(Field (Some "maybe_ticket"%string) 524%N (Some "Option<(AccountId, Ticket)>"%string) []); (Field (Some "count"%string) 4%N (Some "u32"%string) []); (Field (Some "maybe_len"%string) 152%N (Some "Option<u32>"%string) [])] 1%N [])]) []).
Definition md_t522 : ty := 
 (Ty ["frame_support"%string; "traits"%string; "tokens"%string; "fungible"%string; "HoldConsideration"%string] [("A"%string,None); ("F"%string,None); ("R"%string,None); ("D"%string,None); ("Fp"%string,None)] (TComposite [(Field None 6%N (Some "F::Balance"%string) [])]) []).
Definition md_t523 : ty := 
 (Ty [] [] (TTuple [0%N; 522%N]) []).
Definition md_t524 : ty := 
 (Ty ["Option"%string] [("T"%string,(Some 523%N))] (TVariant [(Variant "None"%string [] 0%N []); (Variant "Some"%string [(Field None 523%N None [])] 1%N [])]) []).
Definition md_t525 : ty := 
 (Ty [] [] (TTuple [13%N; 4%N]) []).
Definition md_t526 : ty := 
 (Ty ["bounded_collections"%string; "bounded_vec"%string; "BoundedVec"%string] [("T"%string,(Some 2%N)); ("S"%string,None)] (TComposite [(Field None 14%N (Some "Vec<T>"%string) [])]) []).
Definition md_t527 : ty := 
 (Ty ["pallet_preimage"%string; "pallet"%string; "Error"%string] [("T"%string,None)] (TVariant [(Variant "TooBig"%string [] 0%N []); (Variant "AlreadyNoted"%string [] 1%N []); (Variant "NotAuthorized"%string [] 2%N []); (Variant "NotNoted"%string [] 3%N []); (Variant "Requested"%string [] 4%N []); (Variant "NotRequested"%string [] 5%N []); (Variant "TooMany"%string [] 6%N []); (Variant "TooFew"%string [] 7%N []); (Variant "NoCost"%string [] 8%N [])]) []).
Definition md_t528 : ty := 
 (Ty ["bounded_collections"%string; "weak_bounded_vec"%string; "WeakBoundedVec"%string] [("T"%string,(Some 529%N)); ("S"%string,None)] (TComposite [(Field None 530%N (Some "Vec<T>"%string) [])]) []).
Definition md_t529 : ty := 
 (Ty [] [] (TTuple [105%N; 12%N]) []).
Definition md_t530 : ty := 
 (Ty [] [] (TSequence 529%N) []).
Definition md_t531 : ty := 
 (Ty ["bounded_collections"%string; "bounded_vec"%string; "BoundedVec"%string] [("T"%string,(Some 1%N)); ("S"%string,None)] (TComposite [(Field None 532%N (Some "Vec<T>"%string) [])]) []).
Definition md_t532 : ty := 
 (Ty [] [] (TSequence 1%N) []).
Definition md_t533 : ty := 
 (Ty ["Option"%string] [("T"%string,(Some 534%N))] (TVariant [(Variant "None"%string [] 0%N []); (Variant "Some"%string [(Field None 534%N None [])] 1%N [])]) []).
Definition md_t534 : ty := 
 (Ty ["sp_consensus_babe"%string; "digests"%string; "PreDigest"%string] [] (TVariant [(Variant "Primary"%string [(Field None 535%N (Some "PrimaryPreDigest"%string) [])] 1%N []); (Variant "SecondaryPlain"%string [(Field None 537%N (Some "SecondaryPlainPreDigest"%string) [])] 2%N []); (Variant "SecondaryVRF"%string [(Field None 538%N (Some "SecondaryVRFPreDigest"%string) [])] 3%N [])]) []).
Definition md_t535 : ty := 
 (Ty ["sp_consensus_babe"%string; "digests"%string; "PrimaryPreDigest"%string] [] (TComposite [(Field (Some "authority_index"%string) 4%N (Some "super::AuthorityIndex"%string) []); (Field (Some "slot"%string) 106%N (Some "Slot"%string) []); (Field (Some "vrf_signature"%string) 536%N (Some "VrfSignature"%string) [])]) []).
Definition md_t536 : ty := 
 (Ty ["sp_core"%string; "sr25519"%string; "vrf"%string; "VrfSignature"%string] [] (TComposite [(Field (Some "pre_output"%string) 1%N (Some "VrfPreOutput"%string) []); (Field (Some "proof"%string) 146%N (Some "VrfProof"%string) [])]) []).
Definition md_t537 : ty := 
 (Ty ["sp_consensus_babe"%string; "digests"%string; "SecondaryPlainPreDigest"%string] [] (TComposite [(Field (Some "authority_index"%string) 4%N (Some "super::AuthorityIndex"%string) []); (Field (Some "slot"%string) 106%N (Some "Slot"%string) [])]) []).
Definition md_t538 : ty := 
 (Ty ["sp_consensus_babe"%string; "digests"%string; "SecondaryVRFPreDigest"%string] [] (TComposite [(Field (Some "authority_index"%string) 4%N (Some "super::AuthorityIndex"%string) []); (Field (Some "slot"%string) 106%N (Some "Slot"%string) []); (Field (Some "vrf_signature"%string) 536%N (Some "VrfSignature"%string) [])]) []).
Definition md_t539 : ty := 
 (Ty ["sp_consensus_babe"%string; "BabeEpochConfiguration"%string] [] (TComposite [(Field (Some "c"%string) 109%N (Some "(u64, u64)"%string) []); (Field (Some "allowed_slots"%string) 110%N (Some "AllowedSlots"%string) [])]) []).
Definition md_t540 : ty := 
 (Ty ["bounded_collections"%string; "bounded_vec"%string; "BoundedVec"%string] [("T"%string,(Some 541%N)); ("S"%string,None)] (TComposite [(Field None 542%N (Some "Vec<T>"%string) [])]) []).
Definition md_t541 : ty := 
 (Ty [] [] (TTuple [12%N; 4%N]) []).
Definition md_t542 : ty := 
 (Ty [] [] (TSequence 541%N) []).
Definition md_t543 : ty := 
 (Ty ["pallet_babe"%string; "pallet"%string; "Error"%string] [("T"%string,None)] (TVariant [(Variant "InvalidEquivocationProof"%string [] 0%N []); (Variant "InvalidKeyOwnershipProof"%string [] 1%N []); (Variant "DuplicateOffenceReport"%string [] 2%N []); (Variant "InvalidConfiguration"%string [] 3%N [])]) []).
Definition md_t544 : ty := 
 (Ty [] [] (TTuple [0%N; 6%N; 8%N]) []).
Definition md_t545 : ty := 
 (Ty ["pallet_indices"%string; "pallet"%string; "Error"%string] [("T"%string,None)] (TVariant [(Variant "NotAssigned"%string [] 0%N []); (Variant "NotOwner"%string [] 1%N []); (Variant "InUse"%string [] 2%N []); (Variant "NotTransfer"%string [] 3%N []); (Variant "Permanent"%string [] 4%N [])]) []).
Definition md_t546 : ty := 
 (Ty ["bounded_collections"%string; "weak_bounded_vec"%string; "WeakBoundedVec"%string] [("T"%string,(Some 547%N)); ("S"%string,None)] (TComposite [(Field None 549%N (Some "Vec<T>"%string) [])]) []).
Definition md_t547 : ty := 
 (Ty ["pallet_balances"%string; "types"%string; "BalanceLock"%string] [("Balance"%string,(Some 6%N))] (TComposite [(Field (Some "id"%string) 364%N (Some "LockIdentifier"%string) []); (Field (Some "amount"%string) 6%N (Some "Balance"%string) []); (Field (Some "reasons"%string) 548%N (Some "Reasons"%string) [])]) []).
Definition md_t548 : ty := 
 (Ty ["pallet_balances"%string; "types"%string; "Reasons"%string] [] (TVariant [(Variant "Fee"%string [] 0%N []); (Variant "Misc"%string [] 1%N []); (Variant "All"%string [] 2%N [])]) []).
Definition md_t549 : ty := 
 (Ty [] [] (TSequence 547%N) []).
Definition md_t550 : ty := 
 (Ty ["bounded_collections"%string; "bounded_vec"%string; "BoundedVec"%string] [("T"%string,(Some 551%N)); ("S"%string,None)] (TComposite [(Field None 552%N (Some "Vec<T>"%string) [])]) []).
Definition md_t551 : ty := 
 (Ty ["pallet_balances"%string; "types"%string; "ReserveData"%string] [("ReserveIdentifier"%string,(Some 364%N)); ("Balance"%string,(Some 6%N))] (TComposite [(Field (Some "id"%string) 364%N (Some "ReserveIdentifier"%string) []); (Field (Some "amount"%string) 6%N (Some "Balance"%string) [])]) []).
Definition md_t552 : ty := 
 (Ty [] [] (TSequence 551%N) []).
Definition md_t553 : ty := 
 (Ty ["bounded_collections"%string; "bounded_vec"%string; "BoundedVec"%string] [("T"%string,(Some 554%N)); ("S"%string,None)] (TComposite [(Field None 558%N (Some "Vec<T>"%string) [])]) []).
Definition md_t554 : ty := 
 (Ty ["frame_support"%string; "traits"%string; "tokens"%string; "misc"%string; "IdAmount"%string] [("Id"%string,(Some 555%N)); ("Balance"%string,(Some 6%N))] (TComposite [(Field (Some "id"%string) 555%N (Some "Id"%string) []); (Field (Some "amount"%string) 6%N (Some "Balance"%string) [])]) []).
Definition md_t555 : ty := 
 (Ty ["polkadot_runtime"%string; "RuntimeHoldReason"%string] [] (TVariant [(Variant "Preimage"%string [(Field None 556%N (Some "pallet_preimage::HoldReason"%string) [])] 10%N []); (Variant "StateTrieMigration"%string [(Field None 557%N (Some "pallet_state_trie_migration::HoldReason"%string) [])] 98%N [])]) []).
Definition md_t556 : ty := 
 (Ty ["pallet_preimage"%string; "pallet"%string; "HoldReason"%string] [] (TVariant [(Variant "Preimage"%string [] 0%N [])]) []).
Definition md_t557 : ty := 
 (Ty ["pallet_state_trie_migration"%string; "pallet"%string; "HoldReason"%string] [] (TVariant [(Variant "SlashForMigrate"%string [] 0%N [])]) []).
Definition md_t558 : ty := 
 (Ty [] [] (TSequence 554%N) []).
Definition md_t559 : ty := 
 (Ty ["bounded_collections"%string; "bounded_vec"%string; "BoundedVec"%string] [("T"%string,(Some 560%N)); ("S"%string,None)] (TComposite [(Field None 563%N (Some "Vec<T>"%string) [])]) []).
Definition md_t560 : ty := 
 (Ty ["frame_support"%string; "traits"%string; "tokens"%string; "misc"%string; "IdAmount"%string] [("Id"%string,(Some 561%N)); ("Balance"%string,(Some 6%N))] (TComposite [(Field (Some "id"%string) 561%N (Some "Id"%string) []); (Field (Some "amount"%string) 6%N (Some "Balance"%string) [])]) []).
Definition md_t561 : ty := 
 (Ty ["polkadot_runtime"%string; "RuntimeFreezeReason"%string] [] (TVariant [(Variant "NominationPools"%string [(Field None 562%N (Some "pallet_nomination_pools::FreezeReason"%string) [])] 39%N [])]) []).
Definition md_t562 : ty := 
 (Ty ["pallet_nomination_pools"%string; "pallet"%string; "FreezeReason"%string] [] (TVariant [(Variant "PoolMinBalance"%string [] 0%N [])]) []).
Definition md_t563 : ty := 
 (Ty [] [] (TSequence 560%N) []).
Definition md_t564 : ty := 
 (Ty ["pallet_balances"%string; "pallet"%string; "Error"%string] [("T"%string,None); ("I"%string,None)] (TVariant [(Variant "VestingBalance"%string [] 0%N []); (Variant "LiquidityRestrictions"%string [] 1%N []); (Variant "InsufficientBalance"%string [] 2%N []); (Variant "ExistentialDeposit"%string [] 3%N []); (Variant "Expendability"%string [] 4%N []); (Variant "ExistingVestingSchedule"%string [] 5%N []); (Variant "DeadAccount"%string [] 6%N []); (Variant "TooManyReserves"%string [] 7%N []); (Variant "TooManyHolds"%string [] 8%N []); (Variant "TooManyFreezes"%string [] 9%N []); (Variant "IssuanceDeactivated"%string [] 10%N []); (Variant "DeltaZero"%string [] 11%N [])]) []).
Definition md_t565 : ty := 
 (Ty ["pallet_transaction_payment"%string; "Releases"%string] [] (TVariant [(Variant "V1Ancient"%string [] 0%N []); (Variant "V2"%string [] 1%N [])]) []).
Definition md_t566 : ty := 
 (Ty ["pallet_staking"%string; "StakingLedger"%string] [("T"%string,None)] (TComposite [(Field (Some "stash"%string) 0%N (Some "T::AccountId"%string) []); (Field (Some "total"%string) 63%N (Some "BalanceOf<T>"%string) []); (Field (Some "active"%string) 63%N (Some "BalanceOf<T>"%string) []); (Field (Some "unlocking"%string) 130%N (Some "BoundedVec<UnlockChunk<BalanceOf<T>>, T::MaxUnlockingChunks>"%string) []); (Field (Some "legacy_claimed_rewards"%string) 567%N (Some "BoundedVec<EraIndex, T::HistoryDepth>"%string) [])]) []).
Definition md_t567 : ty := 
 (Ty ["bounded_collections"%string; "bounded_vec"%string; "BoundedVec"%string] [("T"%string,(Some 4%N)); ("S"%string,None)] (TComposite [(Field None 121%N (Some "Vec<T>"%string) [])]) []).
Definition md_t568 : ty := 
 (Ty ["pallet_staking"%string; "Nominations"%string] [("T"%string,None)] (TComposite [(Field (Some "targets"%string) 569%N (Some "BoundedVec<T::AccountId, MaxNominationsOf<T>>"%string) []); (Field (Some "submitted_in"%string) 4%N (Some "EraIndex"%string) []); (Field (Some "suppressed"%string) 8%N (Some "bool"%string) [])]) []).
Definition md_t569 : ty := 
 (Ty ["bounded_collections"%string; "bounded_vec"%string; "BoundedVec"%string] [("T"%string,(Some 0%N)); ("S"%string,None)] (TComposite [(Field None 116%N (Some "Vec<T>"%string) [])]) []).
Definition md_t570 : ty := 
 (Ty ["pallet_staking"%string; "ActiveEraInfo"%string] [] (TComposite [(Field (Some "index"%string) 4%N (Some "EraIndex"%string) []); (Field (Some "start"%string) 571%N (Some "Option<u64>"%string) [])]) []).
Definition md_t571 : ty := 
 (Ty ["Option"%string] [("T"%string,(Some 12%N))] (TVariant [(Variant "None"%string [] 0%N []); (Variant "Some"%string [(Field None 12%N None [])] 1%N [])]) []).
Definition md_t572 : ty := 
 (Ty [] [] (TTuple [4%N; 0%N]) []).
Definition md_t573 : ty := 
 (Ty ["sp_staking"%string; "Exposure"%string] [("AccountId"%string,(Some 0%N)); ("Balance"%string,(Some 6%N))] (TComposite [(Field (Some "total"%string) 63%N (Some "Balance"%string) []); (Field (Some "own"%string) 63%N (Some "Balance"%string) []); (Field (Some "others"%string) 574%N (Some "Vec<IndividualExposure<AccountId, Balance>>"%string) [])]) []).
Definition md_t574 : ty := 
 (Ty [] [] (TSequence 575%N) []).
Definition md_t575 : ty := 
 (Ty ["sp_staking"%string; "IndividualExposure"%string] [("AccountId"%string,(Some 0%N)); ("Balance"%string,(Some 6%N))] (TComposite [(Field (Some "who"%string) 0%N (Some "AccountId"%string) []); (Field (Some "value"%string) 63%N (Some "Balance"%string) [])]) []).
Definition md_t576 : ty := 
 (Ty ["sp_staking"%string; "PagedExposureMetadata"%string] [("Balance"%string,(Some 6%N))] (TComposite [(Field (Some "total"%string) 63%N (Some "Balance"%string) []); (Field (Some "own"%string) 63%N (Some "Balance"%string) []); (Field (Some "nominator_count"%string) 4%N (Some "u32"%string) []); (Field (Some "page_count"%string) 4%N (Some "Page"%string) [])]) []).
Definition md_t577 : ty := 
 (Ty [] [] (TTuple [4%N; 0%N; 4%N]) []).
Definition md_t578 : ty := 
 (Ty ["sp_staking"%string; "ExposurePage"%string] [("AccountId"%string,(Some 0%N)); ("Balance"%string,(Some 6%N))] (TComposite [(Field (Some "page_total"%string) 63%N (Some "Balance"%string) []); (Field (Some "others"%string) 574%N (Some "Vec<IndividualExposure<AccountId, Balance>>"%string) [])]) []).
Definition md_t579 : ty := 
 (Ty ["pallet_staking"%string; "EraRewardPoints"%string] [("AccountId"%string,(Some 0%N))] (TComposite [(Field (Some "total"%string) 4%N (Some "RewardPoint"%string) []); (Field (Some "individual"%string) 580%N (Some "BTreeMap<AccountId, RewardPoint>"%string) [])]) []).
Definition md_t580 : ty := 
 (Ty ["BTreeMap"%string] [("K"%string,(Some 0%N)); ("V"%string,(Some 4%N))] (TComposite [(Field None 581%N None [])]) []).
Definition md_t581 : ty := 
 (Ty [] [] (TSequence 582%N) []).
Definition md_t582 : ty := 
 (Ty [] [] (TTuple [0%N; 4%N]) []).
Definition md_t583 : ty := 
 (Ty [] [] (TSequence 584%N) []).
Definition md_t584 : ty := 
 (Ty ["pallet_staking"%string; "UnappliedSlash"%string] [("AccountId"%string,(Some 0%N)); ("Balance"%string,(Some 6%N))] (TComposite [(Field (Some "validator"%string) 0%N (Some "AccountId"%string) []); (Field (Some "own"%string) 6%N (Some "Balance"%string) []); (Field (Some "others"%string) 259%N (Some "Vec<(AccountId, Balance)>"%string) []); (Field (Some "reporters"%string) 116%N (Some "Vec<AccountId>"%string) []); (Field (Some "payout"%string) 6%N (Some "Balance"%string) [])]) []).
Definition md_t585 : ty := 
 (Ty [] [] (TTuple [43%N; 6%N]) []).
Definition md_t586 : ty := 
 (Ty ["pallet_staking"%string; "slashing"%string; "SlashingSpans"%string] [] (TComposite [(Field (Some "span_index"%string) 4%N (Some "SpanIndex"%string) []); (Field (Some "last_start"%string) 4%N (Some "EraIndex"%string) []); (Field (Some "last_nonzero_slash"%string) 4%N (Some "EraIndex"%string) []); (Field (Some "prior"%string) 121%N (Some "Vec<EraIndex>"%string) [])]) []).
Definition md_t587 : ty := 
 (Ty ["pallet_staking"%string; "slashing"%string; "SpanRecord"%string] [("Balance"%string,(Some 6%N))] (TComposite [(Field (Some "slashed"%string) 6%N (Some "Balance"%string) []); (Field (Some "paid_out"%string) 6%N (Some "Balance"%string) [])]) []).
Definition md_t588 : ty := 
 (Ty ["pallet_staking"%string; "pallet"%string; "pallet"%string; "Error"%string] [("T"%string,None)] (TVariant [(Variant "NotController"%string [] 0%N []); (Variant "NotStash"%string [] 1%N []); (Variant "AlreadyBonded"%string [] 2%N []); (Variant "AlreadyPaired"%string [] 3%N []); (Variant "EmptyTargets"%string [] 4%N []); (Variant "DuplicateIndex"%string [] 5%N []); (Variant "InvalidSlashIndex"%string [] 6%N []); (Variant "InsufficientBond"%string [] 7%N []); (Variant "NoMoreChunks"%string [] 8%N []); (Variant "NoUnlockChunk"%string [] 9%N []); (Variant "FundedTarget"%string [] 10%N []); (Variant "InvalidEraToReward"%string [] 11%N []); (Variant "InvalidNumberOfNominations"%string [] 12%N []); (Variant "NotSortedAndUnique"%string [] 13%N []); (Variant "AlreadyClaimed"%string [] 14%N []); (Variant "InvalidPage"%string [] 15%N []); (Variant "IncorrectHistoryDepth"%string [] 16%N []); (Variant "IncorrectSlashingSpans"%string [] 17%N []); (Variant "BadState"%string [] 18%N []); (Variant "TooManyTargets"%string [] 19%N []); (Variant "BadTarget"%string [] 20%N []); (Variant "CannotChillOther"%string [] 21%N []); (Variant "TooManyNominators"%string [] 22%N []); (Variant "TooManyValidators"%string [] 23%N []); (Variant "CommissionTooLow"%string [] 24%N []); (Variant "BoundNotMet"%string [] 25%N []); (Variant "ControllerDeprecated"%string [] 26%N []); (Variant "CannotRestoreLedger"%string [] 27%N []); (Variant "RewardDestinationRestricted"%string [] 28%N []); (Variant "NotEnoughFunds"%string [] 29%N []); (Variant "VirtualStakerNotAllowed"%string [] 30%N [])]) []).
Definition md_t589 : ty := 
 (Ty ["sp_staking"%string; "offence"%string; "OffenceDetails"%string] [("Reporter"%string,(Some 0%N)); ("Offender"%string,(Some 590%N))] (TComposite [(Field (Some "offender"%string) 590%N (Some "Offender"%string) []); (Field (Some "reporters"%string) 116%N (Some "Vec<Reporter>"%string) [])]) []).
Definition md_t590 : ty := 
 (Ty [] [] (TTuple [0%N; 573%N]) []).
Definition md_t591 : ty := 
 (Ty [] [] (TTuple [48%N; 14%N]) []).
Definition md_t592 : ty := 
 (Ty [] [] (TSequence 593%N) []).
Definition md_t593 : ty := 
 (Ty [] [] (TTuple [0%N; 134%N]) []).
Definition md_t594 : ty := 
 (Ty [] [] (TTuple [595%N; 14%N]) []).
Definition md_t595 : ty := 
 (Ty ["sp_core"%string; "crypto"%string; "KeyTypeId"%string] [] (TComposite [(Field None 18%N (Some "[u8; 4]"%string) [])]) []).
Definition md_t596 : ty := 
 (Ty ["pallet_session"%string; "pallet"%string; "Error"%string] [("T"%string,None)] (TVariant [(Variant "InvalidProof"%string [] 0%N []); (Variant "NoAssociatedValidatorId"%string [] 1%N []); (Variant "DuplicatedKey"%string [] 2%N []); (Variant "NoKeys"%string [] 3%N []); (Variant "NoAccount"%string [] 4%N [])]) []).
Definition md_t597 : ty := 
 (Ty ["pallet_grandpa"%string; "StoredState"%string] [("N"%string,(Some 4%N))] (TVariant [(Variant "Live"%string [] 0%N []); (Variant "PendingPause"%string [(Field (Some "scheduled_at"%string) 4%N (Some "N"%string) []); (Field (Some "delay"%string) 4%N (Some "N"%string) [])] 1%N []); (Variant "Paused"%string [] 2%N []); (Variant "PendingResume"%string [(Field (Some "scheduled_at"%string) 4%N (Some "N"%string) []); (Field (Some "delay"%string) 4%N (Some "N"%string) [])] 3%N [])]) []).
Definition md_t598 : ty := 
 (Ty ["pallet_grandpa"%string; "StoredPendingChange"%string] [("N"%string,(Some 4%N)); ("Limit"%string,None)] (TComposite [(Field (Some "scheduled_at"%string) 4%N (Some "N"%string) []); (Field (Some "delay"%string) 4%N (Some "N"%string) []); (Field (Some "next_authorities"%string) 599%N (Some "BoundedAuthorityList<Limit>"%string) []); (Field (Some "forced"%string) 152%N (Some "Option<N>"%string) [])]) []).
Definition md_t599 : ty := 
 (Ty ["bounded_collections"%string; "weak_bounded_vec"%string; "WeakBoundedVec"%string] [("T"%string,(Some 52%N)); ("S"%string,None)] (TComposite [(Field None 51%N (Some "Vec<T>"%string) [])]) []).
Definition md_t600 : ty := 
 (Ty ["pallet_grandpa"%string; "pallet"%string; "Error"%string] [("T"%string,None)] (TVariant [(Variant "PauseFailed"%string [] 0%N []); (Variant "ResumeFailed"%string [] 1%N []); (Variant "ChangePending"%string [] 2%N []); (Variant "TooSoon"%string [] 3%N []); (Variant "InvalidKeyOwnershipProof"%string [] 4%N []); (Variant "InvalidEquivocationProof"%string [] 5%N []); (Variant "DuplicateOffenceReport"%string [] 6%N [])]) []).
Definition md_t601 : ty := 
 (Ty ["bounded_collections"%string; "weak_bounded_vec"%string; "WeakBoundedVec"%string] [("T"%string,(Some 137%N)); ("S"%string,None)] (TComposite [(Field None 602%N (Some "Vec<T>"%string) [])]) []).
Definition md_t602 : ty := 
 (Ty [] [] (TSequence 137%N) []).
Definition md_t603 : ty := 
 (Ty ["pallet_treasury"%string; "Proposal"%string] [("AccountId"%string,(Some 0%N)); ("Balance"%string,(Some 6%N))] (TComposite [(Field (Some "proposer"%string) 0%N (Some "AccountId"%string) []); (Field (Some "value"%string) 6%N (Some "Balance"%string) []); (Field (Some "beneficiary"%string) 0%N (Some "AccountId"%string) []); (Field (Some "bond"%string) 6%N (Some "Balance"%string) [])]) []).
Definition md_t604 : ty := 
 (Ty ["bounded_collections"%string; "bounded_vec"%string; "BoundedVec"%string] [("T"%string,(Some 4%N)); ("S"%string,None)] (TComposite [(Field None 121%N (Some "Vec<T>"%string) [])]) []).
Definition md_t605 : ty := 
 (Ty ["pallet_treasury"%string; "SpendStatus"%string] [("AssetKind"%string,(Some 55%N)); ("AssetBalance"%string,(Some 6%N)); ("Beneficiary"%string,(Some 81%N)); ("BlockNumber"%string,(Some 4%N)); ("PaymentId"%string,(Some 12%N))] (TComposite [(Field (Some "asset_kind"%string) 55%N (Some "AssetKind"%string) []); (Field (Some "amount"%string) 6%N (Some "AssetBalance"%string) []); (Field (Some "beneficiary"%string) 81%N (Some "Beneficiary"%string) []); (Field (Some "valid_from"%string) 4%N (Some "BlockNumber"%string) []); (Field (Some "expire_at"%string) 4%N (Some "BlockNumber"%string) []); (Field (Some "status"%string) 606%N (Some "PaymentState<PaymentId>"%string) [])]) []).
Definition md_t606 : ty := 
 (Ty ["pallet_treasury"%string; "PaymentState"%string] [("Id"%string,(Some 12%N))] (TVariant [(Variant "Pending"%string [] 0%N []); (Variant "Attempted"%string [(Field (Some "id"%string) 12%N (Some "Id"%string) [])] 1%N []); (Variant "Failed"%string [] 2%N [])]) []).
Definition md_t607 : ty := 
 (Ty ["sp_arithmetic"%string; "per_things"%string; "Permill"%string] [] (TComposite [(Field None 4%N (Some "u32"%string) [])]) []).
Definition md_t608 : ty := 
 (Ty ["frame_support"%string; "PalletId"%string] [] (TComposite [(Field None 364%N (Some "[u8; 8]"%string) [])]) []).
Definition md_t609 : ty := 
 (Ty ["pallet_treasury"%string; "pallet"%string; "Error"%string] [("T"%string,None); ("I"%string,None)] (TVariant [(Variant "InvalidIndex"%string [] 0%N []); (Variant "TooManyApprovals"%string [] 1%N []); (Variant "InsufficientPermission"%string [] 2%N []); (Variant "ProposalNotApproved"%string [] 3%N []); (Variant "FailedToConvertBalance"%string [] 4%N []); (Variant "SpendExpired"%string [] 5%N []); (Variant "EarlyPayout"%string [] 6%N []); (Variant "AlreadyAttempted"%string [] 7%N []); (Variant "PayoutError"%string [] 8%N []); (Variant "NotAttempted"%string [] 9%N []); (Variant "Inconclusive"%string [] 10%N [])]) []).
Definition md_t610 : ty := 
 (Ty [] [] (TTuple [0%N; 91%N]) []).
Definition md_t611 : ty := 
 (Ty ["pallet_conviction_voting"%string; "vote"%string; "Voting"%string] [("Balance"%string,(Some 6%N)); ("AccountId"%string,(Some 0%N)); ("BlockNumber"%string,(Some 4%N)); ("PollIndex"%string,(Some 4%N)); ("MaxVotes"%string,None)] (TVariant [(Variant "Casting"%string [(Field None 612%N (Some "Casting<Balance, BlockNumber, PollIndex, MaxVotes>"%string) [])] 0%N []); (Variant "Delegating"%string [(Field None 618%N (Some "Delegating<Balance, AccountId, BlockNumber>"%string) [])] 1%N [])]) []).
Definition md_t612 : ty := 
 (Ty ["pallet_conviction_voting"%string; "vote"%string; "Casting"%string] [("Balance"%string,(Some 6%N)); ("BlockNumber"%string,(Some 4%N)); ("PollIndex"%string,(Some 4%N)); ("MaxVotes"%string,None)] (TComposite [(Field (Some "votes"%string) 613%N (Some "BoundedVec<(PollIndex, AccountVote<Balance>), MaxVotes>"%string) []); (Field (Some "delegations"%string) 616%N (Some "Delegations<Balance>"%string) []); (Field (Some "prior"%string) 617%N (Some "PriorLock<BlockNumber, Balance>"%string) [])]) []).
Definition md_t613 : ty := 
 (Ty ["bounded_collections"%string; "bounded_vec"%string; "BoundedVec"%string] [("T"%string,(Some 614%N)); ("S"%string,None)] (TComposite [(Field None 615%N (Some "Vec<T>"%string) [])]) []).
Definition md_t614 : ty := 
 (Ty [] [] (TTuple [4%N; 154%N]) []).
Definition md_t615 : ty := 
 (Ty [] [] (TSequence 614%N) []).
Definition md_t616 : ty := 
 (Ty ["pallet_conviction_voting"%string; "types"%string; "Delegations"%string] [("Balance"%string,(Some 6%N))] (TComposite [(Field (Some "votes"%string) 6%N (Some "Balance"%string) []); (Field (Some "capital"%string) 6%N (Some "Balance"%string) [])]) []).
Definition md_t617 : ty := 
 (Ty ["pallet_conviction_voting"%string; "vote"%string; "PriorLock"%string] [("BlockNumber"%string,(Some 4%N)); ("Balance"%string,(Some 6%N))] (TComposite [(Field None 4%N (Some "BlockNumber"%string) []); (Field None 6%N (Some "Balance"%string) [])]) []).
Definition md_t618 : ty := 
 (Ty ["pallet_conviction_voting"%string; "vote"%string; "Delegating"%string] [("Balance"%string,(Some 6%N)); ("AccountId"%string,(Some 0%N)); ("BlockNumber"%string,(Some 4%N))] (TComposite [(Field (Some "balance"%string) 6%N (Some "Balance"%string) []); (Field (Some "target"%string) 0%N (Some "AccountId"%string) []); (Field (Some "conviction"%string) 156%N (Some "Conviction"%string) []); (Field (Some "delegations"%string) 616%N (Some "Delegations<Balance>"%string) []); (Field (Some "prior"%string) 617%N (Some "PriorLock<BlockNumber, Balance>"%string) [])]) []).
Definition md_t619 : ty := 
 (Ty ["bounded_collections"%string; "bounded_vec"%string; "BoundedVec"%string] [("T"%string,(Some 620%N)); ("S"%string,None)] (TComposite [(Field None 621%N (Some "Vec<T>"%string) [])]) []).
Definition md_t620 : ty := 
 (Ty [] [] (TTuple [91%N; 6%N]) []).
Definition md_t621 : ty := 
 (Ty [] [] (TSequence 620%N) []).
Definition md_t622 : ty := 
 (Ty ["pallet_conviction_voting"%string; "pallet"%string; "Error"%string] [("T"%string,None); ("I"%string,None)] (TVariant [(Variant "NotOngoing"%string [] 0%N []); (Variant "NotVoter"%string [] 1%N []); (Variant "NoPermission"%string [] 2%N []); (Variant "NoPermissionYet"%string [] 3%N []); (Variant "AlreadyDelegating"%string [] 4%N []); (Variant "AlreadyVoting"%string [] 5%N []); (Variant "InsufficientFunds"%string [] 6%N []); (Variant "NotDelegating"%string [] 7%N []); (Variant "Nonsense"%string [] 8%N []); (Variant "MaxVotesReached"%string [] 9%N []); (Variant "ClassNeeded"%string [] 10%N []); (Variant "BadClass"%string [] 11%N [])]) []).
Definition md_t623 : ty := 
 (Ty ["pallet_referenda"%string; "types"%string; "ReferendumInfo"%string] [("TrackId"%string,(Some 91%N)); ("RuntimeOrigin"%string,(Some 159%N)); ("Moment"%string,(Some 4%N)); ("Call"%string,(Some 92%N)); ("Balance"%string,(Some 6%N)); ("Tally"%string,(Some 448%N)); ("AccountId"%string,(Some 0%N)); ("ScheduleAddress"%string,(Some 32%N))] (TVariant [(Variant "Ongoing"%string [(Field None 624%N (Some "ReferendumStatus<TrackId, RuntimeOrigin, Moment, Call, Balance, Tally,
AccountId, ScheduleAddress,>"%string) [])] 0%N []); (Variant "Approved"%string [(Field None 4%N (Some "Moment"%string) []); (Field None 626%N (Some "Option<Deposit<AccountId, Balance>>"%string) []); (Field None 626%N (Some "Option<Deposit<AccountId, Balance>>"%string) [])] 1%N []); (Variant "Rejected"%string [(Field None 4%N (Some "Moment"%string) []); (Field None 626%N (Some "Option<Deposit<AccountId, Balance>>"%string) []); (Field None 626%N (Some "Option<Deposit<AccountId, Balance>>"%string) [])] 2%N []); (Variant "Cancelled"%string [(Field None 4%N (Some "Moment"%string) []); (Field None 626%N (Some "Option<Deposit<AccountId, Balance>>"%string) []); (Field None 626%N (Some "Option<Deposit<AccountId, Balance>>"%string) [])] 3%N []); (Variant "TimedOut"%string [(Field None 4%N (Some "Moment"%string) []); (Field None 626%N (Some "Option<Deposit<AccountId, Balance>>"%string) []); (Field None 626%N (Some "Option<Deposit<AccountId, Balance>>"%string) [])] 4%N []); (Variant "Killed"%string [(Field None 4%N (Some "Moment"%string) [])] 5%N [])]) []).
Definition md_t624 : ty := 
 (Ty ["pallet_referenda"%string; "types"%string; "ReferendumStatus"%string] [("TrackId"%string,(Some 91%N)); ("RuntimeOrigin"%string,(Some 159%N)); ("Moment"%string,(Some 4%N)); ("Call"%string,(Some 92%N)); ("Balance"%string,(Some 6%N)); ("Tally"%string,(Some 448%N)); ("AccountId"%string,(Some 0%N)); ("ScheduleAddress"%string,(Some 32%N))] (TComposite [(Field (Some "track"%string) 91%N (Some "TrackId"%string) []); (Field (Some "origin"%string) 159%N (Some "RuntimeOrigin"%string) []); (Field (Some "proposal"%string) 92%N (Some "Call"%string) []); (Field (Some "enactment"%string) 166%N (Some "DispatchTime<Moment>"%string) []); (Field (Some "submitted"%string) 4%N (Some "Moment"%string) []); (Field (Some "submission_deposit"%string) 625%N (Some "Deposit<AccountId, Balance>"%string) []); (Field (Some "decision_deposit"%string) 626%N (Some "Option<Deposit<AccountId, Balance>>"%string) []); (Field (Some "deciding"%string) 627%N (Some "Option<DecidingStatus<Moment>>"%string) []); (Field (Some "tally"%string) 448%N (Some "Tally"%string) []); (Field (Some "in_queue"%string) 8%N (Some "bool"%string) []); (Field (Some "alarm"%string) 629%N (Some "Option<(Moment, ScheduleAddress)>"%string) [])]) []).
Definition md_t625 : ty := 
 (Ty ["pallet_referenda"%string; "types"%string; "Deposit"%string] [("AccountId"%string,(Some 0%N)); ("Balance"%string,(Some 6%N))] (TComposite [(Field (Some "who"%string) 0%N (Some "AccountId"%string) []); (Field (Some "amount"%string) 6%N (Some "Balance"%string) [])]) []).
Definition md_t626 : ty := 
 (Ty ["Option"%string] [("T"%string,(Some 625%N))] (TVariant [(Variant "None"%string [] 0%N []); (Variant "Some"%string [(Field None 625%N None [])] 1%N [])]) []).
Definition md_t627 : ty := 
 (Ty ["Option"%string] [("T"%string,(Some 628%N))] (TVariant [(Variant "None"%string [] 0%N []); (Variant "Some"%string [(Field None 628%N None [])] 1%N [])]) []).
Definition md_t628 : ty := 
 (Ty ["pallet_referenda"%string; "types"%string; "DecidingStatus"%string] [("BlockNumber"%string,(Some 4%N))] (TComposite [(Field (Some "since"%string) 4%N (Some "BlockNumber"%string) []); (Field (Some "confirming"%string) 152%N (Some "Option<BlockNumber>"%string) [])]) []).
Definition md_t629 : ty := 
 (Ty ["Option"%string] [("T"%string,(Some 630%N))] (TVariant [(Variant "None"%string [] 0%N []); (Variant "Some"%string [(Field None 630%N None [])] 1%N [])]) []).
Definition md_t630 : ty := 
 (Ty [] [] (TTuple [4%N; 32%N]) []).
Definition md_t631 : ty := 
 (Ty ["bounded_collections"%string; "bounded_vec"%string; "BoundedVec"%string] [("T"%string,(Some 632%N)); ("S"%string,None)] (TComposite [(Field None 633%N (Some "Vec<T>"%string) [])]) []).
Definition md_t632 : ty := 
 (Ty [] [] (TTuple [4%N; 6%N]) []).
Definition md_t633 : ty := 
 (Ty [] [] (TSequence 632%N) []).
Definition md_t634 : ty := 
 (Ty [] [] (TSequence 635%N) []).
Definition md_t635 : ty := 
 (Ty [] [] (TTuple [91%N; 636%N]) []).
Definition md_t636 : ty := 
 (Ty ["pallet_referenda"%string; "types"%string; "TrackInfo"%string] [("Balance"%string,(Some 6%N)); ("Moment"%string,(Some 4%N))] (TComposite [(Field (Some "name"%string) 500%N (Some "&'static str"%string) []); (Field (Some "max_deciding"%string) 4%N (Some "u32"%string) []); (Field (Some "decision_deposit"%string) 6%N (Some "Balance"%string) []); (Field (Some "prepare_period"%string) 4%N (Some "Moment"%string) []); (Field (Some "decision_period"%string) 4%N (Some "Moment"%string) []); (Field (Some "confirm_period"%string) 4%N (Some "Moment"%string) []); (Field (Some "min_enactment_period"%string) 4%N (Some "Moment"%string) []); (Field (Some "min_approval"%string) 637%N (Some "Curve"%string) []); (Field (Some "min_support"%string) 637%N (Some "Curve"%string) [])]) []).
Definition md_t637 : ty := 
 (Ty ["pallet_referenda"%string; "types"%string; "Curve"%string] [] (TVariant [(Variant "LinearDecreasing"%string [(Field (Some "length"%string) 43%N (Some "Perbill"%string) []); (Field (Some "floor"%string) 43%N (Some "Perbill"%string) []); (Field (Some "ceil"%string) 43%N (Some "Perbill"%string) [])] 0%N []); (Variant "SteppedDecreasing"%string [(Field (Some "begin"%string) 43%N (Some "Perbill"%string) []); (Field (Some "end"%string) 43%N (Some "Perbill"%string) []); (Field (Some "step"%string) 43%N (Some "Perbill"%string) []); (Field (Some "period"%string) 43%N (Some "Perbill"%string) [])] 1%N []); (Variant "Reciprocal"%string [(Field (Some "factor"%string) 638%N (Some "FixedI64"%string) []); (Field (Some "x_offset"%string) 638%N (Some "FixedI64"%string) []); (Field (Some "y_offset"%string) 638%N (Some "FixedI64"%string) [])] 2%N [])]) []).
Definition md_t638 : ty := 
 (Ty ["sp_arithmetic"%string; "fixed_point"%string; "FixedI64"%string] [] (TComposite [(Field None 639%N (Some "i64"%string) [])]) []).
Definition md_t639 : ty := 
 (Ty [] [] (TPrimitive (PrI U64)) []).
Definition md_t640 : ty := 
 (Ty ["pallet_referenda"%string; "pallet"%string; "Error"%string] [("T"%string,None); ("I"%string,None)] (TVariant [(Variant "NotOngoing"%string [] 0%N []); (Variant "HasDeposit"%string [] 1%N []); (Variant "BadTrack"%string [] 2%N []); (Variant "Full"%string [] 3%N []); (Variant "QueueEmpty"%string [] 4%N []); (Variant "BadReferendum"%string [] 5%N []); (Variant "NothingToDo"%string [] 6%N []); (Variant "NoTrack"%string [] 7%N []); (Variant "Unfinished"%string [] 8%N []); (Variant "NoPermission"%string [] 9%N []); (Variant "NoDeposit"%string [] 10%N []); (Variant "BadStatus"%string [] 11%N []); (Variant "PreimageNotExist"%string [] 12%N []); (Variant "PreimageStoredWithDifferentLength"%string [] 13%N [])]) []).
Definition md_t641 : ty := 
 (Ty ["pallet_whitelist"%string; "pallet"%string; "Error"%string] [("T"%string,None)] (TVariant [(Variant "UnavailablePreImage"%string [] 0%N []); (Variant "UndecodableCall"%string [] 1%N []); (Variant "InvalidCallWeightWitness"%string [] 2%N []); (Variant "CallIsNotWhitelisted"%string [] 3%N []); (Variant "CallAlreadyWhitelisted"%string [] 4%N [])]) []).
Definition md_t642 : ty := 
 (Ty ["polkadot_runtime_common"%string; "claims"%string; "pallet"%string; "Error"%string] [("T"%string,None)] (TVariant [(Variant "InvalidEthereumSignature"%string [] 0%N []); (Variant "SignerHasNoClaim"%string [] 1%N []); (Variant "SenderHasNoClaim"%string [] 2%N []); (Variant "PotUnderflow"%string [] 3%N []); (Variant "InvalidStatement"%string [] 4%N []); (Variant "VestedBalanceExists"%string [] 5%N [])]) []).
Definition md_t643 : ty := 
 (Ty ["bounded_collections"%string; "bounded_vec"%string; "BoundedVec"%string] [("T"%string,(Some 189%N)); ("S"%string,None)] (TComposite [(Field None 644%N (Some "Vec<T>"%string) [])]) []).
Definition md_t644 : ty := 
 (Ty [] [] (TSequence 189%N) []).
Definition md_t645 : ty := 
 (Ty ["pallet_vesting"%string; "Releases"%string] [] (TVariant [(Variant "V0"%string [] 0%N []); (Variant "V1"%string [] 1%N [])]) []).
Definition md_t646 : ty := 
 (Ty ["pallet_vesting"%string; "pallet"%string; "Error"%string] [("T"%string,None)] (TVariant [(Variant "NotVesting"%string [] 0%N []); (Variant "AtMaxVestingSchedules"%string [] 1%N []); (Variant "AmountLow"%string [] 2%N []); (Variant "ScheduleIndexOutOfBounds"%string [] 3%N []); (Variant "InvalidScheduleParams"%string [] 4%N [])]) []).
Definition md_t647 : ty := 
 (Ty ["pallet_utility"%string; "pallet"%string; "Error"%string] [("T"%string,None)] (TVariant [(Variant "TooManyCalls"%string [] 0%N [])]) []).
Definition md_t648 : ty := 
 (Ty [] [] (TTuple [649%N; 6%N]) []).
Definition md_t649 : ty := 
 (Ty ["bounded_collections"%string; "bounded_vec"%string; "BoundedVec"%string] [("T"%string,(Some 650%N)); ("S"%string,None)] (TComposite [(Field None 651%N (Some "Vec<T>"%string) [])]) []).
Definition md_t650 : ty := 
 (Ty ["pallet_proxy"%string; "ProxyDefinition"%string] [("AccountId"%string,(Some 0%N)); ("ProxyType"%string,(Some 194%N)); ("BlockNumber"%string,(Some 4%N))] (TComposite [(Field (Some "delegate"%string) 0%N (Some "AccountId"%string) []); (Field (Some "proxy_type"%string) 194%N (Some "ProxyType"%string) []); (Field (Some "delay"%string) 4%N (Some "BlockNumber"%string) [])]) []).
Definition md_t651 : ty := 
 (Ty [] [] (TSequence 650%N) []).
Definition md_t652 : ty := 
 (Ty [] [] (TTuple [653%N; 6%N]) []).
Definition md_t653 : ty := 
 (Ty ["bounded_collections"%string; "bounded_vec"%string; "BoundedVec"%string] [("T"%string,(Some 654%N)); ("S"%string,None)] (TComposite [(Field None 655%N (Some "Vec<T>"%string) [])]) []).
Definition md_t654 : ty := 
 (Ty ["pallet_proxy"%string; "Announcement"%string] [("AccountId"%string,(Some 0%N)); ("Hash"%string,(Some 13%N)); ("BlockNumber"%string,(Some 4%N))] (TComposite [(Field (Some "real"%string) 0%N (Some "AccountId"%string) []); (Field (Some "call_hash"%string) 13%N (Some "Hash"%string) []); (Field (Some "height"%string) 4%N (Some "BlockNumber"%string) [])]) []).
Definition md_t655 : ty := 
 (Ty [] [] (TSequence 654%N) []).
Definition md_t656 : ty := 
 (Ty ["pallet_proxy"%string; "pallet"%string; "Error"%string] [("T"%string,None)] (TVariant [(Variant "TooMany"%string [] 0%N []); (Variant "NotFound"%string [] 1%N []); (Variant "NotProxy"%string [] 2%N []); (Variant "Unproxyable"%string [] 3%N []); (Variant "Duplicate"%string [] 4%N []); (Variant "NoPermission"%string [] 5%N []); (Variant "Unannounced"%string [] 6%N []); (Variant "NoSelfProxy"%string [] 7%N [])]) []).
Definition md_t657 : ty := 
 (Ty [] [] (TTuple [0%N; 1%N]) []).
Definition md_t658 : ty := 
 (Ty ["pallet_multisig"%string; "Multisig"%string] [("BlockNumber"%string,(Some 4%N)); ("Balance"%string,(Some 6%N)); ("AccountId"%string,(Some 0%N)); ("MaxApprovals"%string,None)] (TComposite [(Field (Some "when"%string) 197%N (Some "Timepoint<BlockNumber>"%string) []); (Field (Some "deposit"%string) 6%N (Some "Balance"%string) []); (Field (Some "depositor"%string) 0%N (Some "AccountId"%string) []); (Field (Some "approvals"%string) 659%N (Some "BoundedVec<AccountId, MaxApprovals>"%string) [])]) []).
Definition md_t659 : ty := 
 (Ty ["bounded_collections"%string; "bounded_vec"%string; "BoundedVec"%string] [("T"%string,(Some 0%N)); ("S"%string,None)] (TComposite [(Field None 116%N (Some "Vec<T>"%string) [])]) []).
Definition md_t660 : ty := 
 (Ty ["pallet_multisig"%string; "pallet"%string; "Error"%string] [("T"%string,None)] (TVariant [(Variant "MinimumThreshold"%string [] 0%N []); (Variant "AlreadyApproved"%string [] 1%N []); (Variant "NoApprovalsNeeded"%string [] 2%N []); (Variant "TooFewSignatories"%string [] 3%N []); (Variant "TooManySignatories"%string [] 4%N []); (Variant "SignatoriesOutOfOrder"%string [] 5%N []); (Variant "SenderInSignatories"%string [] 6%N []); (Variant "NotFound"%string [] 7%N []); (Variant "NotOwner"%string [] 8%N []); (Variant "NoTimepoint"%string [] 9%N []); (Variant "WrongTimepoint"%string [] 10%N []); (Variant "UnexpectedTimepoint"%string [] 11%N []); (Variant "MaxWeightTooLow"%string [] 12%N []); (Variant "AlreadyStored"%string [] 13%N [])]) []).
Definition md_t661 : ty := 
 (Ty ["pallet_bounties"%string; "Bounty"%string] [("AccountId"%string,(Some 0%N)); ("Balance"%string,(Some 6%N)); ("BlockNumber"%string,(Some 4%N))] (TComposite [(Field (Some "proposer"%string) 0%N (Some "AccountId"%string) []); (Field (Some "value"%string) 6%N (Some "Balance"%string) []); (Field (Some "fee"%string) 6%N (Some "Balance"%string) []); (Field (Some "curator_deposit"%string) 6%N (Some "Balance"%string) []); (Field (Some "bond"%string) 6%N (Some "Balance"%string) []); (Field (Some "status"%string) 662%N (Some "BountyStatus<AccountId, BlockNumber>"%string) [])]) []).
Definition md_t662 : ty := 
 (Ty ["pallet_bounties"%string; "BountyStatus"%string] [("AccountId"%string,(Some 0%N)); ("BlockNumber"%string,(Some 4%N))] (TVariant [(Variant "Proposed"%string [] 0%N []); (Variant "Approved"%string [] 1%N []); (Variant "Funded"%string [] 2%N []); (Variant "CuratorProposed"%string [(Field (Some "curator"%string) 0%N (Some "AccountId"%string) [])] 3%N []); (Variant "Active"%string [(Field (Some "curator"%string) 0%N (Some "AccountId"%string) []); (Field (Some "update_due"%string) 4%N (Some "BlockNumber"%string) [])] 4%N []); (Variant "PendingPayout"%string [(Field (Some "curator"%string) 0%N (Some "AccountId"%string) []); (Field (Some "beneficiary"%string) 0%N (Some "AccountId"%string) []); (Field (Some "unlock_at"%string) 4%N (Some "BlockNumber"%string) [])] 5%N [])]) []).
Definition md_t663 : ty := 
 (Ty ["bounded_collections"%string; "bounded_vec"%string; "BoundedVec"%string] [("T"%string,(Some 2%N)); ("S"%string,None)] (TComposite [(Field None 14%N (Some "Vec<T>"%string) [])]) []).
Definition md_t664 : ty := 
 (Ty ["pallet_bounties"%string; "pallet"%string; "Error"%string] [("T"%string,None); ("I"%string,None)] (TVariant [(Variant "InsufficientProposersBalance"%string [] 0%N []); (Variant "InvalidIndex"%string [] 1%N []); (Variant "ReasonTooBig"%string [] 2%N []); (Variant "UnexpectedStatus"%string [] 3%N []); (Variant "RequireCurator"%string [] 4%N []); (Variant "InvalidValue"%string [] 5%N []); (Variant "InvalidFee"%string [] 6%N []); (Variant "PendingPayout"%string [] 7%N []); (Variant "Premature"%string [] 8%N []); (Variant "HasActiveChildBounty"%string [] 9%N []); (Variant "TooManyQueued"%string [] 10%N [])]) []).
Definition md_t665 : ty := 
 (Ty ["pallet_child_bounties"%string; "ChildBounty"%string] [("AccountId"%string,(Some 0%N)); ("Balance"%string,(Some 6%N)); ("BlockNumber"%string,(Some 4%N))] (TComposite [(Field (Some "parent_bounty"%string) 4%N (Some "BountyIndex"%string) []); (Field (Some "value"%string) 6%N (Some "Balance"%string) []); (Field (Some "fee"%string) 6%N (Some "Balance"%string) []); (Field (Some "curator_deposit"%string) 6%N (Some "Balance"%string) []); (Field (Some "status"%string) 666%N (Some "ChildBountyStatus<AccountId, BlockNumber>"%string) [])]) []).
Definition md_t666 : ty := 
 (Ty ["pallet_child_bounties"%string; "ChildBountyStatus"%string] [("AccountId"%string,(Some 0%N)); ("BlockNumber"%string,(Some 4%N))] (TVariant [(Variant "Added"%string [] 0%N []); (Variant "CuratorProposed"%string [(Field (Some "curator"%string) 0%N (Some "AccountId"%string) [])] 1%N []); (Variant "Active"%string [(Field (Some "curator"%string) 0%N (Some "AccountId"%string) [])] 2%N []); (Variant "PendingPayout"%string [(Field (Some "curator"%string) 0%N (Some "AccountId"%string) []); (Field (Some "beneficiary"%string) 0%N (Some "AccountId"%string) []); (Field (Some "unlock_at"%string) 4%N (Some "BlockNumber"%string) [])] 3%N [])]) []).
Definition md_t667 : ty := 
 (Ty ["pallet_child_bounties"%string; "pallet"%string; "Error"%string] [("T"%string,None)] (TVariant [(Variant "ParentBountyNotActive"%string [] 0%N []); (Variant "InsufficientBountyBalance"%string [] 1%N []); (Variant "TooManyChildBounties"%string [] 2%N [])]) []).
Definition md_t668 : ty := 
 (Ty ["pallet_election_provider_multi_phase"%string; "ReadySolution"%string] [("AccountId"%string,None); ("MaxWinners"%string,None)] (TComposite [(Field (Some "supports"%string) 669%N (Some "BoundedSupports<AccountId, MaxWinners>"%string) []); (Field (Some "score"%string) 253%N (Some "ElectionScore"%string) []); (Field (Some "compute"%string) 468%N (Some "ElectionCompute"%string) [])]) []).
Definition md_t669 : ty := 
 (Ty ["bounded_collections"%string; "bounded_vec"%string; "BoundedVec"%string] [("T"%string,(Some 257%N)); ("S"%string,None)] (TComposite [(Field None 256%N (Some "Vec<T>"%string) [])]) []).
Definition md_t670 : ty := 
 (Ty ["pallet_election_provider_multi_phase"%string; "RoundSnapshot"%string] [("AccountId"%string,(Some 0%N)); ("DataProvider"%string,(Some 671%N))] (TComposite [(Field (Some "voters"%string) 672%N (Some "Vec<DataProvider>"%string) []); (Field (Some "targets"%string) 116%N (Some "Vec<AccountId>"%string) [])]) []).
Definition md_t671 : ty := 
 (Ty [] [] (TTuple [0%N; 12%N; 569%N]) []).
Definition md_t672 : ty := 
 (Ty [] [] (TSequence 671%N) []).
Definition md_t673 : ty := 
 (Ty ["bounded_collections"%string; "bounded_vec"%string; "BoundedVec"%string] [("T"%string,(Some 674%N)); ("S"%string,None)] (TComposite [(Field None 675%N (Some "Vec<T>"%string) [])]) []).
Definition md_t674 : ty := 
 (Ty [] [] (TTuple [253%N; 4%N; 4%N]) []).
Definition md_t675 : ty := 
 (Ty [] [] (TSequence 674%N) []).
Definition md_t676 : ty := 
 (Ty ["pallet_election_provider_multi_phase"%string; "signed"%string; "SignedSubmission"%string] [("AccountId"%string,(Some 0%N)); ("Balance"%string,(Some 6%N)); ("Solution"%string,(Some 202%N))] (TComposite [(Field (Some "who"%string) 0%N (Some "AccountId"%string) []); (Field (Some "deposit"%string) 6%N (Some "Balance"%string) []); (Field (Some "raw_solution"%string) 201%N (Some "RawSolution<Solution>"%string) []); (Field (Some "call_fee"%string) 6%N (Some "Balance"%string) [])]) []).
Definition md_t677 : ty := 
 (Ty ["pallet_election_provider_multi_phase"%string; "pallet"%string; "Error"%string] [("T"%string,None)] (TVariant [(Variant "PreDispatchEarlySubmission"%string [] 0%N []); (Variant "PreDispatchWrongWinnerCount"%string [] 1%N []); (Variant "PreDispatchWeakSubmission"%string [] 2%N []); (Variant "SignedQueueFull"%string [] 3%N []); (Variant "SignedCannotPayDeposit"%string [] 4%N []); (Variant "SignedInvalidWitness"%string [] 5%N []); (Variant "SignedTooMuchWeight"%string [] 6%N []); (Variant "OcwCallWrongEra"%string [] 7%N []); (Variant "MissingSnapshotMetadata"%string [] 8%N []); (Variant "InvalidSubmissionIndex"%string [] 9%N []); (Variant "CallNotAllowed"%string [] 10%N []); (Variant "FallbackFailed"%string [] 11%N []); (Variant "BoundNotMet"%string [] 12%N []); (Variant "TooManyWinners"%string [] 13%N []); (Variant "PreDispatchDifferentRound"%string [] 14%N [])]) []).
Definition md_t678 : ty := 
 (Ty ["pallet_bags_list"%string; "list"%string; "Node"%string] [("T"%string,None); ("I"%string,None)] (TComposite [(Field (Some "id"%string) 0%N (Some "T::AccountId"%string) []); (Field (Some "prev"%string) 127%N (Some "Option<T::AccountId>"%string) []); (Field (Some "next"%string) 127%N (Some "Option<T::AccountId>"%string) []); (Field (Some "bag_upper"%string) 12%N (Some "T::Score"%string) []); (Field (Some "score"%string) 12%N (Some "T::Score"%string) [])]) []).
Definition md_t679 : ty := 
 (Ty ["pallet_bags_list"%string; "list"%string; "Bag"%string] [("T"%string,None); ("I"%string,None)] (TComposite [(Field (Some "head"%string) 127%N (Some "Option<T::AccountId>"%string) []); (Field (Some "tail"%string) 127%N (Some "Option<T::AccountId>"%string) [])]) []).
Definition md_t680 : ty := 
 (Ty [] [] (TSequence 12%N) []).
Definition md_t681 : ty := 
 (Ty ["pallet_bags_list"%string; "pallet"%string; "Error"%string] [("T"%string,None); ("I"%string,None)] (TVariant [(Variant "List"%string [(Field None 682%N (Some "ListError"%string) [])] 0%N [])]) []).
Definition md_t682 : ty := 
 (Ty ["pallet_bags_list"%string; "list"%string; "ListError"%string] [] (TVariant [(Variant "Duplicate"%string [] 0%N []); (Variant "NotHeavier"%string [] 1%N []); (Variant "NotInSameBag"%string [] 2%N []); (Variant "NodeNotFound"%string [] 3%N [])]) []).
Definition md_t683 : ty := 
 (Ty ["pallet_nomination_pools"%string; "PoolMember"%string] [("T"%string,None)] (TComposite [(Field (Some "pool_id"%string) 4%N (Some "PoolId"%string) []); (Field (Some "points"%string) 6%N (Some "BalanceOf<T>"%string) []); (Field (Some "last_recorded_reward_counter"%string) 436%N (Some "T::RewardCounter"%string) []); (Field (Some "unbonding_eras"%string) 684%N (Some "BoundedBTreeMap<EraIndex, BalanceOf<T>, T::MaxUnbonding>"%string) [])]) []).
Definition md_t684 : ty := 
 (Ty ["bounded_collections"%string; "bounded_btree_map"%string; "BoundedBTreeMap"%string] [("K"%string,(Some 4%N)); ("V"%string,(Some 6%N)); ("S"%string,None)] (TComposite [(Field None 685%N (Some "BTreeMap<K, V>"%string) [])]) []).
Definition md_t685 : ty := 
 (Ty ["BTreeMap"%string] [("K"%string,(Some 4%N)); ("V"%string,(Some 6%N))] (TComposite [(Field None 633%N None [])]) []).
Definition md_t686 : ty := 
 (Ty ["pallet_nomination_pools"%string; "BondedPoolInner"%string] [("T"%string,None)] (TComposite [(Field (Some "commission"%string) 687%N (Some "Commission<T>"%string) []); (Field (Some "member_counter"%string) 4%N (Some "u32"%string) []); (Field (Some "points"%string) 6%N (Some "BalanceOf<T>"%string) []); (Field (Some "roles"%string) 690%N (Some "PoolRoles<T::AccountId>"%string) []); (Field (Some "state"%string) 264%N (Some "PoolState"%string) [])]) []).
Definition md_t687 : ty := 
 (Ty ["pallet_nomination_pools"%string; "Commission"%string] [("T"%string,None)] (TComposite [(Field (Some "current"%string) 270%N (Some "Option<(Perbill, T::AccountId)>"%string) []); (Field (Some "max"%string) 688%N (Some "Option<Perbill>"%string) []); (Field (Some "change_rate"%string) 689%N (Some "Option<CommissionChangeRate<BlockNumberFor<T>>>"%string) []); (Field (Some "throttle_from"%string) 152%N (Some "Option<BlockNumberFor<T>>"%string) []); (Field (Some "claim_permission"%string) 273%N (Some "Option<CommissionClaimPermission<T::AccountId>>"%string) [])]) []).
Definition md_t688 : ty := 
 (Ty ["Option"%string] [("T"%string,(Some 43%N))] (TVariant [(Variant "None"%string [] 0%N []); (Variant "Some"%string [(Field None 43%N None [])] 1%N [])]) []).
Definition md_t689 : ty := 
 (Ty ["Option"%string] [("T"%string,(Some 272%N))] (TVariant [(Variant "None"%string [] 0%N []); (Variant "Some"%string [(Field None 272%N None [])] 1%N [])]) []).
Definition md_t690 : ty := 
 (Ty ["pallet_nomination_pools"%string; "PoolRoles"%string] [("AccountId"%string,(Some 0%N))] (TComposite [(Field (Some "depositor"%string) 0%N (Some "AccountId"%string) []); (Field (Some "root"%string) 127%N (Some "Option<AccountId>"%string) []); (Field (Some "nominator"%string) 127%N (Some "Option<AccountId>"%string) []); (Field (Some "bouncer"%string) 127%N (Some "Option<AccountId>"%string) [])]) []).
Definition md_t691 : ty := 
 (Ty ["pallet_nomination_pools"%string; "RewardPool"%string] [("T"%string,None)] (TComposite [(Field (Some "last_recorded_reward_counter"%string) 436%N (Some "T::RewardCounter"%string) []); (Field (Some "last_recorded_total_payouts"%string) 6%N (Some "BalanceOf<T>"%string) []); (Field (Some "total_rewards_claimed"%string) 6%N (Some "BalanceOf<T>"%string) []); (Field (Some "total_commission_pending"%string) 6%N (Some "BalanceOf<T>"%string) []); (Field (Some "total_commission_claimed"%string) 6%N (Some "BalanceOf<T>"%string) [])]) []).
Definition md_t692 : ty := 
 (Ty ["pallet_nomination_pools"%string; "SubPools"%string] [("T"%string,None)] (TComposite [(Field (Some "no_era"%string) 693%N (Some "UnbondPool<T>"%string) []); (Field (Some "with_era"%string) 694%N (Some "BoundedBTreeMap<EraIndex, UnbondPool<T>, TotalUnbondingPools<T>>"%string) [])]) []).
Definition md_t693 : ty := 
 (Ty ["pallet_nomination_pools"%string; "UnbondPool"%string] [("T"%string,None)] (TComposite [(Field (Some "points"%string) 6%N (Some "BalanceOf<T>"%string) []); (Field (Some "balance"%string) 6%N (Some "BalanceOf<T>"%string) [])]) []).
Definition md_t694 : ty := 
 (Ty ["bounded_collections"%string; "bounded_btree_map"%string; "BoundedBTreeMap"%string] [("K"%string,(Some 4%N)); ("V"%string,(Some 693%N)); ("S"%string,None)] (TComposite [(Field None 695%N (Some "BTreeMap<K, V>"%string) [])]) []).
Definition md_t695 : ty := 
 (Ty ["BTreeMap"%string] [("K"%string,(Some 4%N)); ("V"%string,(Some 693%N))] (TComposite [(Field None 696%N None [])]) []).
Definition md_t696 : ty := 
 (Ty [] [] (TSequence 697%N) []).
Definition md_t697 : ty := 
 (Ty [] [] (TTuple [4%N; 693%N]) []).
Definition md_t698 : ty := 
 (Ty ["bounded_collections"%string; "bounded_vec"%string; "BoundedVec"%string] [("T"%string,(Some 2%N)); ("S"%string,None)] (TComposite [(Field None 14%N (Some "Vec<T>"%string) [])]) []).
Definition md_t699 : ty := 
 (Ty ["pallet_nomination_pools"%string; "pallet"%string; "Error"%string] [("T"%string,None)] (TVariant [(Variant "PoolNotFound"%string [] 0%N []); (Variant "PoolMemberNotFound"%string [] 1%N []); (Variant "RewardPoolNotFound"%string [] 2%N []); (Variant "SubPoolsNotFound"%string [] 3%N []); (Variant "AccountBelongsToOtherPool"%string [] 4%N []); (Variant "FullyUnbonding"%string [] 5%N []); (Variant "MaxUnbondingLimit"%string [] 6%N []); (Variant "CannotWithdrawAny"%string [] 7%N []); (Variant "MinimumBondNotMet"%string [] 8%N []); (Variant "OverflowRisk"%string [] 9%N []); (Variant "NotDestroying"%string [] 10%N []); (Variant "NotNominator"%string [] 11%N []); (Variant "NotKickerOrDestroying"%string [] 12%N []); (Variant "NotOpen"%string [] 13%N []); (Variant "MaxPools"%string [] 14%N []); (Variant "MaxPoolMembers"%string [] 15%N []); (Variant "CanNotChangeState"%string [] 16%N []); (Variant "DoesNotHavePermission"%string [] 17%N []); (Variant "MetadataExceedsMaxLen"%string [] 18%N []); (Variant "Defensive"%string [(Field None 700%N (Some "DefensiveError"%string) [])] 19%N []); (Variant "PartialUnbondNotAllowedPermissionlessly"%string [] 20%N []); (Variant "MaxCommissionRestricted"%string [] 21%N []); (Variant "CommissionExceedsMaximum"%string [] 22%N []); (Variant "CommissionExceedsGlobalMaximum"%string [] 23%N []); (Variant "CommissionChangeThrottled"%string [] 24%N []); (Variant "CommissionChangeRateNotAllowed"%string [] 25%N []); (Variant "NoPendingCommission"%string [] 26%N []); (Variant "NoCommissionCurrentSet"%string [] 27%N []); (Variant "PoolIdInUse"%string [] 28%N []); (Variant "InvalidPoolId"%string [] 29%N []); (Variant "BondExtraRestricted"%string [] 30%N []); (Variant "NothingToAdjust"%string [] 31%N []); (Variant "NothingToSlash"%string [] 32%N []); (Variant "AlreadyMigrated"%string [] 33%N []); (Variant "NotMigrated"%string [] 34%N []); (Variant "NotSupported"%string [] 35%N [])]) []).
Definition md_t700 : ty := 
 (Ty ["pallet_nomination_pools"%string; "pallet"%string; "DefensiveError"%string] [] (TVariant [(Variant "NotEnoughSpaceInUnbondPool"%string [] 0%N []); (Variant "PoolNotFound"%string [] 1%N []); (Variant "RewardPoolNotFound"%string [] 2%N []); (Variant "SubPoolsNotFound"%string [] 3%N []); (Variant "BondedStashKilledPrematurely"%string [] 4%N []); (Variant "DelegationUnsupported"%string [] 5%N []); (Variant "SlashNotApplied"%string [] 6%N [])]) []).
Definition md_t701 : ty := 
 (Ty ["pallet_fast_unstake"%string; "types"%string; "UnstakeRequest"%string] [("T"%string,None)] (TComposite [(Field (Some "stashes"%string) 702%N (Some "BoundedVec<(T::AccountId, BalanceOf<T>), T::BatchSize>"%string) []); (Field (Some "checked"%string) 703%N (Some "BoundedVec<EraIndex, MaxChecking<T>>"%string) [])]) []).
Definition md_t702 : ty := 
 (Ty ["bounded_collections"%string; "bounded_vec"%string; "BoundedVec"%string] [("T"%string,(Some 260%N)); ("S"%string,None)] (TComposite [(Field None 259%N (Some "Vec<T>"%string) [])]) []).
Definition md_t703 : ty := 
 (Ty ["bounded_collections"%string; "bounded_vec"%string; "BoundedVec"%string] [("T"%string,(Some 4%N)); ("S"%string,None)] (TComposite [(Field None 121%N (Some "Vec<T>"%string) [])]) []).
Definition md_t704 : ty := 
 (Ty ["pallet_fast_unstake"%string; "pallet"%string; "Error"%string] [("T"%string,None)] (TVariant [(Variant "NotController"%string [] 0%N []); (Variant "AlreadyQueued"%string [] 1%N []); (Variant "NotFullyBonded"%string [] 2%N []); (Variant "NotQueued"%string [] 3%N []); (Variant "AlreadyHead"%string [] 4%N []); (Variant "CallNotAllowed"%string [] 5%N [])]) []).
Definition md_t705 : ty := 
 (Ty ["polkadot_runtime_parachains"%string; "configuration"%string; "HostConfiguration"%string] [("BlockNumber"%string,(Some 4%N))] (TComposite [(Field (Some "max_code_size"%string) 4%N (Some "u32"%string) []); (Field (Some "max_head_data_size"%string) 4%N (Some "u32"%string) []); (Field (Some "max_upward_queue_count"%string) 4%N (Some "u32"%string) []); (Field (Some "max_upward_queue_size"%string) 4%N (Some "u32"%string) []); (Field (Some "max_upward_message_size"%string) 4%N (Some "u32"%string) []); (Field (Some "max_upward_message_num_per_candidate"%string) 4%N (Some "u32"%string) []); (Field (Some "hrmp_max_message_num_per_candidate"%string) 4%N (Some "u32"%string) []); (Field (Some "validation_upgrade_cooldown"%string) 4%N (Some "BlockNumber"%string) []); (Field (Some "validation_upgrade_delay"%string) 4%N (Some "BlockNumber"%string) []); (Field (Some "async_backing_params"%string) 277%N (Some "AsyncBackingParams"%string) []); (Field (Some "max_pov_size"%string) 4%N (Some "u32"%string) []); (Field (Some "max_downward_message_size"%string) 4%N (Some "u32"%string) []); (Field (Some "hrmp_max_parachain_outbound_channels"%string) 4%N (Some "u32"%string) []); (Field (Some "hrmp_sender_deposit"%string) 6%N (Some "Balance"%string) []); (Field (Some "hrmp_recipient_deposit"%string) 6%N (Some "Balance"%string) []); (Field (Some "hrmp_channel_max_capacity"%string) 4%N (Some "u32"%string) []); (Field (Some "hrmp_channel_max_total_size"%string) 4%N (Some "u32"%string) []); (Field (Some "hrmp_max_parachain_inbound_channels"%string) 4%N (Some "u32"%string) []); (Field (Some "hrmp_channel_max_message_size"%string) 4%N (Some "u32"%string) []); (Field (Some "executor_params"%string) 278%N (Some "ExecutorParams"%string) []); (Field (Some "code_retention_period"%string) 4%N (Some "BlockNumber"%string) []); (Field (Some "max_validators"%string) 152%N (Some "Option<u32>"%string) []); (Field (Some "dispute_period"%string) 4%N (Some "SessionIndex"%string) []); (Field (Some "dispute_post_conclusion_acceptance_period"%string) 4%N (Some "BlockNumber"%string) []); (Field (Some "no_show_slots"%string) 4%N (Some "u32"%string) []); (Field (Some "n_delay_tranches"%string) 4%N (Some "u32"%string) []); (Field (Some "zeroth_delay_tranche_width"%string) 4%N (Some "u32"%string) []); (Field (Some "needed_approvals"%string) 4%N (Some "u32"%string) []); (Field (Some "relay_vrf_modulo_samples"%string) 4%N (Some "u32"%string) []); (Field (Some "pvf_voting_ttl"%string) 4%N (Some "SessionIndex"%string) []); (Field (Some "minimum_validation_upgrade_delay"%string) 4%N (Some "BlockNumber"%string) []); (Field (Some "minimum_backing_votes"%string) 4%N (Some "u32"%string) []); (Field (Some "node_features"%string) 292%N (Some "NodeFeatures"%string) []); (Field (Some "approval_voting_params"%string) 283%N (Some "ApprovalVotingParams"%string) []); (Field (Some "scheduler_params"%string) 284%N (Some "SchedulerParams<BlockNumber>"%string) [])]) []).
Definition md_t706 : ty := 
 (Ty [] [] (TSequence 707%N) []).
Definition md_t707 : ty := 
 (Ty [] [] (TTuple [4%N; 705%N]) []).
Definition md_t708 : ty := 
 (Ty ["polkadot_runtime_parachains"%string; "configuration"%string; "pallet"%string; "Error"%string] [("T"%string,None)] (TVariant [(Variant "InvalidNewValue"%string [] 0%N [])]) []).
Definition md_t709 : ty := 
 (Ty [] [] (TSequence 294%N) []).
Definition md_t710 : ty := 
 (Ty [] [] (TSequence 135%N) []).
Definition md_t711 : ty := 
 (Ty ["polkadot_runtime_parachains"%string; "shared"%string; "AllowedRelayParentsTracker"%string] [("Hash"%string,(Some 13%N)); ("BlockNumber"%string,(Some 4%N))] (TComposite [(Field (Some "buffer"%string) 712%N (Some "VecDeque<(Hash, Hash)>"%string) []); (Field (Some "latest_number"%string) 4%N (Some "BlockNumber"%string) [])]) []).
Definition md_t712 : ty := 
 (Ty [] [] (TSequence 713%N) []).
Definition md_t713 : ty := 
 (Ty [] [] (TTuple [13%N; 13%N]) []).
Definition md_t714 : ty := 
 (Ty [] [] (TSequence 715%N) []).
Definition md_t715 : ty := 
 (Ty ["polkadot_runtime_parachains"%string; "inclusion"%string; "CandidatePendingAvailability"%string] [("H"%string,(Some 13%N)); ("N"%string,(Some 4%N))] (TComposite [(Field (Some "core"%string) 476%N (Some "CoreIndex"%string) []); (Field (Some "hash"%string) 315%N (Some "CandidateHash"%string) []); (Field (Some "descriptor"%string) 299%N (Some "CandidateDescriptor<H>"%string) []); (Field (Some "commitments"%string) 303%N (Some "CandidateCommitments"%string) []); (Field (Some "availability_votes"%string) 292%N (Some "BitVec<u8, BitOrderLsb0>"%string) []); (Field (Some "backers"%string) 292%N (Some "BitVec<u8, BitOrderLsb0>"%string) []); (Field (Some "relay_parent_number"%string) 4%N (Some "N"%string) []); (Field (Some "backed_in_number"%string) 4%N (Some "N"%string) []); (Field (Some "backing_group"%string) 477%N (Some "GroupIndex"%string) [])]) []).
Definition md_t716 : ty := 
 (Ty ["polkadot_runtime_parachains"%string; "inclusion"%string; "pallet"%string; "Error"%string] [("T"%string,None)] (TVariant [(Variant "ValidatorIndexOutOfBounds"%string [] 0%N []); (Variant "UnscheduledCandidate"%string [] 1%N []); (Variant "HeadDataTooLarge"%string [] 2%N []); (Variant "PrematureCodeUpgrade"%string [] 3%N []); (Variant "NewCodeTooLarge"%string [] 4%N []); (Variant "DisallowedRelayParent"%string [] 5%N []); (Variant "InvalidAssignment"%string [] 6%N []); (Variant "InvalidGroupIndex"%string [] 7%N []); (Variant "InsufficientBacking"%string [] 8%N []); (Variant "InvalidBacking"%string [] 9%N []); (Variant "NotCollatorSigned"%string [] 10%N []); (Variant "ValidationDataHashMismatch"%string [] 11%N []); (Variant "IncorrectDownwardMessageHandling"%string [] 12%N []); (Variant "InvalidUpwardMessages"%string [] 13%N []); (Variant "HrmpWatermarkMishandling"%string [] 14%N []); (Variant "InvalidOutboundHrmp"%string [] 15%N []); (Variant "InvalidValidationCodeHash"%string [] 16%N []); (Variant "ParaHeadMismatch"%string [] 17%N [])]) []).
Definition md_t717 : ty := 
 (Ty ["polkadot_primitives"%string; "v7"%string; "ScrapedOnChainVotes"%string] [("H"%string,(Some 13%N))] (TComposite [(Field (Some "session"%string) 4%N (Some "SessionIndex"%string) []); (Field (Some "backing_validators_per_candidate"%string) 718%N (Some "Vec<(CandidateReceipt<H>, Vec<(ValidatorIndex, ValidityAttestation)>)
>"%string) []); (Field (Some "disputes"%string) 313%N (Some "MultiDisputeStatementSet"%string) [])]) []).
Definition md_t718 : ty := 
 (Ty [] [] (TSequence 719%N) []).
Definition md_t719 : ty := 
 (Ty [] [] (TTuple [475%N; 720%N]) []).
Definition md_t720 : ty := 
 (Ty [] [] (TSequence 721%N) []).
Definition md_t721 : ty := 
 (Ty [] [] (TTuple [294%N; 312%N]) []).
Definition md_t722 : ty := 
 (Ty ["polkadot_runtime_parachains"%string; "paras_inherent"%string; "pallet"%string; "Error"%string] [("T"%string,None)] (TVariant [(Variant "TooManyInclusionInherents"%string [] 0%N []); (Variant "InvalidParentHeader"%string [] 1%N []); (Variant "InherentOverweight"%string [] 2%N []); (Variant "CandidatesFilteredDuringExecution"%string [] 3%N []); (Variant "UnscheduledCandidate"%string [] 4%N [])]) []).
Definition md_t723 : ty := 
 (Ty [] [] (TSequence 709%N) []).
Definition md_t724 : ty := 
 (Ty [] [] (TSequence 725%N) []).
Definition md_t725 : ty := 
 (Ty ["polkadot_runtime_parachains"%string; "scheduler"%string; "pallet"%string; "CoreOccupied"%string] [("N"%string,(Some 4%N))] (TVariant [(Variant "Free"%string [] 0%N []); (Variant "Paras"%string [(Field None 726%N (Some "ParasEntry<N>"%string) [])] 1%N [])]) []).
Definition md_t726 : ty := 
 (Ty ["polkadot_runtime_parachains"%string; "scheduler"%string; "pallet"%string; "ParasEntry"%string] [("N"%string,(Some 4%N))] (TComposite [(Field (Some "assignment"%string) 727%N (Some "Assignment"%string) []); (Field (Some "availability_timeouts"%string) 4%N (Some "u32"%string) []); (Field (Some "ttl"%string) 4%N (Some "N"%string) [])]) []).
Definition md_t727 : ty := 
 (Ty ["polkadot_runtime_parachains"%string; "scheduler"%string; "common"%string; "Assignment"%string] [] (TVariant [(Variant "Pool"%string [(Field (Some "para_id"%string) 163%N (Some "ParaId"%string) []); (Field (Some "core_index"%string) 476%N (Some "CoreIndex"%string) [])] 0%N []); (Variant "Bulk"%string [(Field None 163%N (Some "ParaId"%string) [])] 1%N [])]) []).
Definition md_t728 : ty := 
 (Ty ["BTreeMap"%string] [("K"%string,(Some 476%N)); ("V"%string,(Some 729%N))] (TComposite [(Field None 730%N None [])]) []).
Definition md_t729 : ty := 
 (Ty [] [] (TSequence 726%N) []).
Definition md_t730 : ty := 
 (Ty [] [] (TSequence 731%N) []).
Definition md_t731 : ty := 
 (Ty [] [] (TTuple [476%N; 729%N]) []).
Definition md_t732 : ty := 
 (Ty ["polkadot_runtime_parachains"%string; "paras"%string; "PvfCheckActiveVoteState"%string] [("BlockNumber"%string,(Some 4%N))] (TComposite [(Field (Some "votes_accept"%string) 292%N (Some "BitVec<u8, BitOrderLsb0>"%string) []); (Field (Some "votes_reject"%string) 292%N (Some "BitVec<u8, BitOrderLsb0>"%string) []); (Field (Some "age"%string) 4%N (Some "SessionIndex"%string) []); (Field (Some "created_at"%string) 4%N (Some "BlockNumber"%string) []); (Field (Some "causes"%string) 733%N (Some "Vec<PvfCheckCause<BlockNumber>>"%string) [])]) []).
Definition md_t733 : ty := 
 (Ty [] [] (TSequence 734%N) []).
Definition md_t734 : ty := 
 (Ty ["polkadot_runtime_parachains"%string; "paras"%string; "PvfCheckCause"%string] [("BlockNumber"%string,(Some 4%N))] (TVariant [(Variant "Onboarding"%string [(Field None 163%N (Some "ParaId"%string) [])] 0%N []); (Variant "Upgrade"%string [(Field (Some "id"%string) 163%N (Some "ParaId"%string) []); (Field (Some "included_at"%string) 4%N (Some "BlockNumber"%string) []); (Field (Some "upgrade_strategy"%string) 735%N (Some "UpgradeStrategy"%string) [])] 1%N [])]) []).
Definition md_t735 : ty := 
 (Ty ["polkadot_runtime_parachains"%string; "paras"%string; "UpgradeStrategy"%string] [] (TVariant [(Variant "SetGoAheadSignal"%string [] 0%N []); (Variant "ApplyAtExpectedBlock"%string [] 1%N [])]) []).
Definition md_t736 : ty := 
 (Ty [] [] (TSequence 302%N) []).
Definition md_t737 : ty := 
 (Ty [] [] (TSequence 163%N) []).
Definition md_t738 : ty := 
 (Ty ["polkadot_runtime_parachains"%string; "paras"%string; "ParaLifecycle"%string] [] (TVariant [(Variant "Onboarding"%string [] 0%N []); (Variant "Parathread"%string [] 1%N []); (Variant "Parachain"%string [] 2%N []); (Variant "UpgradingParathread"%string [] 3%N []); (Variant "DowngradingParachain"%string [] 4%N []); (Variant "OffboardingParathread"%string [] 5%N []); (Variant "OffboardingParachain"%string [] 6%N [])]) []).
Definition md_t739 : ty := 
 (Ty [] [] (TTuple [163%N; 4%N]) []).
Definition md_t740 : ty := 
 (Ty ["polkadot_runtime_parachains"%string; "paras"%string; "ParaPastCodeMeta"%string] [("N"%string,(Some 4%N))] (TComposite [(Field (Some "upgrade_times"%string) 741%N (Some "Vec<ReplacementTimes<N>>"%string) []); (Field (Some "last_pruned"%string) 152%N (Some "Option<N>"%string) [])]) []).
Definition md_t741 : ty := 
 (Ty [] [] (TSequence 742%N) []).
Definition md_t742 : ty := 
 (Ty ["polkadot_runtime_parachains"%string; "paras"%string; "ReplacementTimes"%string] [("N"%string,(Some 4%N))] (TComposite [(Field (Some "expected_at"%string) 4%N (Some "N"%string) []); (Field (Some "activated_at"%string) 4%N (Some "N"%string) [])]) []).
Definition md_t743 : ty := 
 (Ty [] [] (TSequence 739%N) []).
Definition md_t744 : ty := 
 (Ty ["polkadot_primitives"%string; "v7"%string; "UpgradeGoAhead"%string] [] (TVariant [(Variant "Abort"%string [] 0%N []); (Variant "GoAhead"%string [] 1%N [])]) []).
Definition md_t745 : ty := 
 (Ty ["polkadot_primitives"%string; "v7"%string; "UpgradeRestriction"%string] [] (TVariant [(Variant "Present"%string [] 0%N [])]) []).
Definition md_t746 : ty := 
 (Ty ["polkadot_runtime_parachains"%string; "paras"%string; "ParaGenesisArgs"%string] [] (TComposite [(Field (Some "genesis_head"%string) 310%N (Some "HeadData"%string) []); (Field (Some "validation_code"%string) 309%N (Some "ValidationCode"%string) []); (Field (Some "para_kind"%string) 8%N (Some "ParaKind"%string) [])]) []).
Definition md_t747 : ty := 
 (Ty ["polkadot_runtime_parachains"%string; "paras"%string; "pallet"%string; "Error"%string] [("T"%string,None)] (TVariant [(Variant "NotRegistered"%string [] 0%N []); (Variant "CannotOnboard"%string [] 1%N []); (Variant "CannotOffboard"%string [] 2%N []); (Variant "CannotUpgrade"%string [] 3%N []); (Variant "CannotDowngrade"%string [] 4%N []); (Variant "PvfCheckStatementStale"%string [] 5%N []); (Variant "PvfCheckStatementFuture"%string [] 6%N []); (Variant "PvfCheckValidatorIndexOutOfBounds"%string [] 7%N []); (Variant "PvfCheckInvalidSignature"%string [] 8%N []); (Variant "PvfCheckDoubleVote"%string [] 9%N []); (Variant "PvfCheckSubjectInvalid"%string [] 10%N []); (Variant "CannotUpgradeCode"%string [] 11%N []); (Variant "InvalidCode"%string [] 12%N [])]) []).
Definition md_t748 : ty := 
 (Ty [] [] (TSequence 749%N) []).
Definition md_t749 : ty := 
 (Ty ["polkadot_runtime_parachains"%string; "initializer"%string; "BufferedSessionChange"%string] [] (TComposite [(Field (Some "validators"%string) 710%N (Some "Vec<ValidatorId>"%string) []); (Field (Some "queued"%string) 710%N (Some "Vec<ValidatorId>"%string) []); (Field (Some "session_index"%string) 4%N (Some "SessionIndex"%string) [])]) []).
Definition md_t750 : ty := 
 (Ty [] [] (TSequence 751%N) []).
Definition md_t751 : ty := 
 (Ty ["polkadot_core_primitives"%string; "InboundDownwardMessage"%string] [("BlockNumber"%string,(Some 4%N))] (TComposite [(Field (Some "sent_at"%string) 4%N (Some "BlockNumber"%string) []); (Field (Some "msg"%string) 14%N (Some "DownwardMessage"%string) [])]) []).
Definition md_t752 : ty := 
 (Ty ["polkadot_runtime_parachains"%string; "hrmp"%string; "HrmpOpenChannelRequest"%string] [] (TComposite [(Field (Some "confirmed"%string) 8%N (Some "bool"%string) []); (Field (Some "_age"%string) 4%N (Some "SessionIndex"%string) []); (Field (Some "sender_deposit"%string) 6%N (Some "Balance"%string) []); (Field (Some "max_message_size"%string) 4%N (Some "u32"%string) []); (Field (Some "max_capacity"%string) 4%N (Some "u32"%string) []); (Field (Some "max_total_size"%string) 4%N (Some "u32"%string) [])]) []).
Definition md_t753 : ty := 
 (Ty [] [] (TSequence 326%N) []).
Definition md_t754 : ty := 
 (Ty ["polkadot_runtime_parachains"%string; "hrmp"%string; "HrmpChannel"%string] [] (TComposite [(Field (Some "max_capacity"%string) 4%N (Some "u32"%string) []); (Field (Some "max_total_size"%string) 4%N (Some "u32"%string) []); (Field (Some "max_message_size"%string) 4%N (Some "u32"%string) []); (Field (Some "msg_count"%string) 4%N (Some "u32"%string) []); (Field (Some "total_size"%string) 4%N (Some "u32"%string) []); (Field (Some "mqc_head"%string) 167%N (Some "Option<Hash>"%string) []); (Field (Some "sender_deposit"%string) 6%N (Some "Balance"%string) []); (Field (Some "recipient_deposit"%string) 6%N (Some "Balance"%string) [])]) []).
Definition md_t755 : ty := 
 (Ty [] [] (TSequence 756%N) []).
Definition md_t756 : ty := 
 (Ty ["polkadot_core_primitives"%string; "InboundHrmpMessage"%string] [("BlockNumber"%string,(Some 4%N))] (TComposite [(Field (Some "sent_at"%string) 4%N (Some "BlockNumber"%string) []); (Field (Some "data"%string) 14%N (Some "sp_std::vec::Vec<u8>"%string) [])]) []).
Definition md_t757 : ty := 
 (Ty [] [] (TSequence 758%N) []).
Definition md_t758 : ty := 
 (Ty [] [] (TTuple [4%N; 737%N]) []).
Definition md_t759 : ty := 
 (Ty ["polkadot_runtime_parachains"%string; "hrmp"%string; "pallet"%string; "Error"%string] [("T"%string,None)] (TVariant [(Variant "OpenHrmpChannelToSelf"%string [] 0%N []); (Variant "OpenHrmpChannelInvalidRecipient"%string [] 1%N []); (Variant "OpenHrmpChannelZeroCapacity"%string [] 2%N []); (Variant "OpenHrmpChannelCapacityExceedsLimit"%string [] 3%N []); (Variant "OpenHrmpChannelZeroMessageSize"%string [] 4%N []); (Variant "OpenHrmpChannelMessageSizeExceedsLimit"%string [] 5%N []); (Variant "OpenHrmpChannelAlreadyExists"%string [] 6%N []); (Variant "OpenHrmpChannelAlreadyRequested"%string [] 7%N []); (Variant "OpenHrmpChannelLimitExceeded"%string [] 8%N []); (Variant "AcceptHrmpChannelDoesntExist"%string [] 9%N []); (Variant "AcceptHrmpChannelAlreadyConfirmed"%string [] 10%N []); (Variant "AcceptHrmpChannelLimitExceeded"%string [] 11%N []); (Variant "CloseHrmpChannelUnauthorized"%string [] 12%N []); (Variant "CloseHrmpChannelDoesntExist"%string [] 13%N []); (Variant "CloseHrmpChannelAlreadyUnderway"%string [] 14%N []); (Variant "CancelHrmpOpenChannelUnauthorized"%string [] 15%N []); (Variant "OpenHrmpChannelDoesntExist"%string [] 16%N []); (Variant "OpenHrmpChannelAlreadyConfirmed"%string [] 17%N []); (Variant "WrongWitness"%string [] 18%N []); (Variant "ChannelCreationNotAuthorized"%string [] 19%N [])]) []).
Definition md_t760 : ty := 
 (Ty [] [] (TSequence 136%N) []).
Definition md_t761 : ty := 
 (Ty ["polkadot_primitives"%string; "v7"%string; "SessionInfo"%string] [] (TComposite [(Field (Some "active_validator_indices"%string) 709%N (Some "Vec<ValidatorIndex>"%string) []); (Field (Some "random_seed"%string) 1%N (Some "[u8; 32]"%string) []); (Field (Some "dispute_period"%string) 4%N (Some "SessionIndex"%string) []); (Field (Some "validators"%string) 762%N (Some "IndexedVec<ValidatorIndex, ValidatorId>"%string) []); (Field (Some "discovery_keys"%string) 602%N (Some "Vec<AuthorityDiscoveryId>"%string) []); (Field (Some "assignment_keys"%string) 760%N (Some "Vec<AssignmentId>"%string) []); (Field (Some "validator_groups"%string) 763%N (Some "IndexedVec<GroupIndex, Vec<ValidatorIndex>>"%string) []); (Field (Some "n_cores"%string) 4%N (Some "u32"%string) []); (Field (Some "zeroth_delay_tranche_width"%string) 4%N (Some "u32"%string) []); (Field (Some "relay_vrf_modulo_samples"%string) 4%N (Some "u32"%string) []); (Field (Some "n_delay_tranches"%string) 4%N (Some "u32"%string) []); (Field (Some "no_show_slots"%string) 4%N (Some "u32"%string) []); (Field (Some "needed_approvals"%string) 4%N (Some "u32"%string) [])]) []).
Definition md_t762 : ty := 
 (Ty ["polkadot_primitives"%string; "v7"%string; "IndexedVec"%string] [("K"%string,(Some 294%N)); ("V"%string,(Some 135%N))] (TComposite [(Field None 710%N (Some "Vec<V>"%string) [])]) []).
Definition md_t763 : ty := 
 (Ty ["polkadot_primitives"%string; "v7"%string; "IndexedVec"%string] [("K"%string,(Some 477%N)); ("V"%string,(Some 709%N))] (TComposite [(Field None 723%N (Some "Vec<V>"%string) [])]) []).
Definition md_t764 : ty := 
 (Ty [] [] (TTuple [4%N; 315%N]) []).
Definition md_t765 : ty := 
 (Ty ["polkadot_primitives"%string; "v7"%string; "DisputeState"%string] [("N"%string,(Some 4%N))] (TComposite [(Field (Some "validators_for"%string) 292%N (Some "BitVec<u8, bitvec::order::Lsb0>"%string) []); (Field (Some "validators_against"%string) 292%N (Some "BitVec<u8, bitvec::order::Lsb0>"%string) []); (Field (Some "start"%string) 4%N (Some "N"%string) []); (Field (Some "concluded_at"%string) 152%N (Some "Option<N>"%string) [])]) []).
Definition md_t766 : ty := 
 (Ty ["BTreeSet"%string] [("T"%string,(Some 294%N))] (TComposite [(Field None 709%N None [])]) []).
Definition md_t767 : ty := 
 (Ty ["polkadot_runtime_parachains"%string; "disputes"%string; "pallet"%string; "Error"%string] [("T"%string,None)] (TVariant [(Variant "DuplicateDisputeStatementSets"%string [] 0%N []); (Variant "AncientDisputeStatement"%string [] 1%N []); (Variant "ValidatorIndexOutOfBounds"%string [] 2%N []); (Variant "InvalidSignature"%string [] 3%N []); (Variant "DuplicateStatement"%string [] 4%N []); (Variant "SingleSidedDispute"%string [] 5%N []); (Variant "MaliciousBacker"%string [] 6%N []); (Variant "MissingBackingVotes"%string [] 7%N []); (Variant "UnconfirmedDispute"%string [] 8%N [])]) []).
Definition md_t768 : ty := 
 (Ty ["polkadot_primitives"%string; "v7"%string; "slashing"%string; "PendingSlashes"%string] [] (TComposite [(Field (Some "keys"%string) 769%N (Some "BTreeMap<ValidatorIndex, ValidatorId>"%string) []); (Field (Some "kind"%string) 331%N (Some "SlashingOffenceKind"%string) [])]) []).
Definition md_t769 : ty := 
 (Ty ["BTreeMap"%string] [("K"%string,(Some 294%N)); ("V"%string,(Some 135%N))] (TComposite [(Field None 770%N None [])]) []).
Definition md_t770 : ty := 
 (Ty [] [] (TSequence 771%N) []).
Definition md_t771 : ty := 
 (Ty [] [] (TTuple [294%N; 135%N]) []).
Definition md_t772 : ty := 
 (Ty ["polkadot_runtime_parachains"%string; "disputes"%string; "slashing"%string; "pallet"%string; "Error"%string] [("T"%string,None)] (TVariant [(Variant "InvalidKeyOwnershipProof"%string [] 0%N []); (Variant "InvalidSessionIndex"%string [] 1%N []); (Variant "InvalidCandidateHash"%string [] 2%N []); (Variant "InvalidValidatorIndex"%string [] 3%N []); (Variant "ValidatorIndexIdMismatch"%string [] 4%N []); (Variant "DuplicateSlashingReport"%string [] 5%N [])]) []).
Definition md_t773 : ty := 
 (Ty ["polkadot_runtime_parachains"%string; "assigner_on_demand"%string; "types"%string; "CoreAffinityCount"%string] [] (TComposite [(Field (Some "core_index"%string) 476%N (Some "CoreIndex"%string) []); (Field (Some "count"%string) 4%N (Some "u32"%string) [])]) []).
Definition md_t774 : ty := 
 (Ty ["polkadot_runtime_parachains"%string; "assigner_on_demand"%string; "types"%string; "QueueStatusType"%string] [] (TComposite [(Field (Some "traffic"%string) 436%N (Some "FixedU128"%string) []); (Field (Some "next_index"%string) 775%N (Some "QueueIndex"%string) []); (Field (Some "smallest_index"%string) 775%N (Some "QueueIndex"%string) []); (Field (Some "freed_indices"%string) 776%N (Some "BinaryHeap<ReverseQueueIndex>"%string) [])]) []).
Definition md_t775 : ty := 
 (Ty ["polkadot_runtime_parachains"%string; "assigner_on_demand"%string; "types"%string; "QueueIndex"%string] [] (TComposite [(Field None 4%N (Some "u32"%string) [])]) []).
Definition md_t776 : ty := 
 (Ty ["BinaryHeap"%string] [("T"%string,(Some 777%N))] (TComposite [(Field None 778%N None [])]) []).
Definition md_t777 : ty := 
 (Ty ["polkadot_runtime_parachains"%string; "assigner_on_demand"%string; "types"%string; "ReverseQueueIndex"%string] [] (TComposite [(Field None 4%N (Some "u32"%string) [])]) []).
Definition md_t778 : ty := 
 (Ty [] [] (TSequence 777%N) []).
Definition md_t779 : ty := 
 (Ty ["BinaryHeap"%string] [("T"%string,(Some 780%N))] (TComposite [(Field None 781%N None [])]) []).
Definition md_t780 : ty := 
 (Ty ["polkadot_runtime_parachains"%string; "assigner_on_demand"%string; "types"%string; "EnqueuedOrder"%string] [] (TComposite [(Field (Some "para_id"%string) 163%N (Some "ParaId"%string) []); (Field (Some "idx"%string) 775%N (Some "QueueIndex"%string) [])]) []).
Definition md_t781 : ty := 
 (Ty [] [] (TSequence 780%N) []).
Definition md_t782 : ty := 
 (Ty ["bounded_collections"%string; "bounded_vec"%string; "BoundedVec"%string] [("T"%string,(Some 6%N)); ("S"%string,None)] (TComposite [(Field None 783%N (Some "Vec<T>"%string) [])]) []).
Definition md_t783 : ty := 
 (Ty [] [] (TSequence 6%N) []).
Definition md_t784 : ty := 
 (Ty ["polkadot_runtime_parachains"%string; "assigner_on_demand"%string; "pallet"%string; "Error"%string] [("T"%string,None)] (TVariant [(Variant "QueueFull"%string [] 0%N []); (Variant "SpotPriceHigherThanMaxAmount"%string [] 1%N [])]) []).
Definition md_t785 : ty := 
 (Ty [] [] (TTuple [4%N; 476%N]) []).
Definition md_t786 : ty := 
 (Ty ["polkadot_runtime_parachains"%string; "assigner_coretime"%string; "Schedule"%string] [("N"%string,(Some 4%N))] (TComposite [(Field (Some "assignments"%string) 343%N (Some "Vec<(CoreAssignment, PartsOf57600)>"%string) []); (Field (Some "end_hint"%string) 152%N (Some "Option<N>"%string) []); (Field (Some "next_schedule"%string) 152%N (Some "Option<N>"%string) [])]) []).
Definition md_t787 : ty := 
 (Ty ["polkadot_runtime_parachains"%string; "assigner_coretime"%string; "CoreDescriptor"%string] [("N"%string,(Some 4%N))] (TComposite [(Field (Some "queue"%string) 788%N (Some "Option<QueueDescriptor<N>>"%string) []); (Field (Some "current_work"%string) 790%N (Some "Option<WorkState<N>>"%string) [])]) []).
Definition md_t788 : ty := 
 (Ty ["Option"%string] [("T"%string,(Some 789%N))] (TVariant [(Variant "None"%string [] 0%N []); (Variant "Some"%string [(Field None 789%N None [])] 1%N [])]) []).
Definition md_t789 : ty := 
 (Ty ["polkadot_runtime_parachains"%string; "assigner_coretime"%string; "QueueDescriptor"%string] [("N"%string,(Some 4%N))] (TComposite [(Field (Some "first"%string) 4%N (Some "N"%string) []); (Field (Some "last"%string) 4%N (Some "N"%string) [])]) []).
Definition md_t790 : ty := 
 (Ty ["Option"%string] [("T"%string,(Some 791%N))] (TVariant [(Variant "None"%string [] 0%N []); (Variant "Some"%string [(Field None 791%N None [])] 1%N [])]) []).
Definition md_t791 : ty := 
 (Ty ["polkadot_runtime_parachains"%string; "assigner_coretime"%string; "WorkState"%string] [("N"%string,(Some 4%N))] (TComposite [(Field (Some "assignments"%string) 792%N (Some "Vec<(CoreAssignment, AssignmentState)>"%string) []); (Field (Some "end_hint"%string) 152%N (Some "Option<N>"%string) []); (Field (Some "pos"%string) 91%N (Some "u16"%string) []); (Field (Some "step"%string) 346%N (Some "PartsOf57600"%string) [])]) []).
Definition md_t792 : ty := 
 (Ty [] [] (TSequence 793%N) []).
Definition md_t793 : ty := 
 (Ty [] [] (TTuple [345%N; 794%N]) []).
Definition md_t794 : ty := 
 (Ty ["polkadot_runtime_parachains"%string; "assigner_coretime"%string; "AssignmentState"%string] [] (TComposite [(Field (Some "ratio"%string) 346%N (Some "PartsOf57600"%string) []); (Field (Some "remaining"%string) 346%N (Some "PartsOf57600"%string) [])]) []).
Definition md_t795 : ty := 
 (Ty ["polkadot_runtime_parachains"%string; "assigner_coretime"%string; "pallet"%string; "Error"%string] [("T"%string,None)] (TVariant [(Variant "AssignmentsEmpty"%string [] 0%N []); (Variant "OverScheduled"%string [] 1%N []); (Variant "UnderScheduled"%string [] 2%N []); (Variant "DisallowedInsert"%string [] 3%N []); (Variant "DuplicateInsert"%string [] 4%N []); (Variant "AssignmentsNotSorted"%string [] 5%N [])]) []).
Definition md_t796 : ty := 
 (Ty ["polkadot_runtime_common"%string; "paras_registrar"%string; "ParaInfo"%string] [("Account"%string,(Some 0%N)); ("Balance"%string,(Some 6%N))] (TComposite [(Field (Some "manager"%string) 0%N (Some "Account"%string) []); (Field (Some "deposit"%string) 6%N (Some "Balance"%string) []); (Field (Some "locked"%string) 179%N (Some "Option<bool>"%string) [])]) []).
Definition md_t797 : ty := 
 (Ty ["polkadot_runtime_common"%string; "paras_registrar"%string; "pallet"%string; "Error"%string] [("T"%string,None)] (TVariant [(Variant "NotRegistered"%string [] 0%N []); (Variant "AlreadyRegistered"%string [] 1%N []); (Variant "NotOwner"%string [] 2%N []); (Variant "CodeTooLarge"%string [] 3%N []); (Variant "HeadDataTooLarge"%string [] 4%N []); (Variant "NotParachain"%string [] 5%N []); (Variant "NotParathread"%string [] 6%N []); (Variant "CannotDeregister"%string [] 7%N []); (Variant "CannotDowngrade"%string [] 8%N []); (Variant "CannotUpgrade"%string [] 9%N []); (Variant "ParaLocked"%string [] 10%N []); (Variant "NotReserved"%string [] 11%N []); (Variant "InvalidCode"%string [] 12%N []); (Variant "CannotSwap"%string [] 13%N [])]) []).
Definition md_t798 : ty := 
 (Ty [] [] (TSequence 520%N) []).
Definition md_t799 : ty := 
 (Ty ["polkadot_runtime_common"%string; "slots"%string; "pallet"%string; "Error"%string] [("T"%string,None)] (TVariant [(Variant "ParaNotOnboarding"%string [] 0%N []); (Variant "LeaseError"%string [] 1%N [])]) []).
Definition md_t800 : ty := 
 (Ty [] [] (TTuple [0%N; 163%N]) []).
Definition md_t801 : ty := 
 (Ty [] [] (TArray 36%N 802%N) []).
Definition md_t802 : ty := 
 (Ty ["Option"%string] [("T"%string,(Some 803%N))] (TVariant [(Variant "None"%string [] 0%N []); (Variant "Some"%string [(Field None 803%N None [])] 1%N [])]) []).
Definition md_t803 : ty := 
 (Ty [] [] (TTuple [0%N; 163%N; 6%N]) []).
Definition md_t804 : ty := 
 (Ty ["polkadot_runtime_common"%string; "auctions"%string; "pallet"%string; "Error"%string] [("T"%string,None)] (TVariant [(Variant "AuctionInProgress"%string [] 0%N []); (Variant "LeasePeriodInPast"%string [] 1%N []); (Variant "ParaNotRegistered"%string [] 2%N []); (Variant "NotCurrentAuction"%string [] 3%N []); (Variant "NotAuction"%string [] 4%N []); (Variant "AuctionEnded"%string [] 5%N []); (Variant "AlreadyLeasedOut"%string [] 6%N [])]) []).
Definition md_t805 : ty := 
 (Ty ["polkadot_runtime_common"%string; "crowdloan"%string; "FundInfo"%string] [("AccountId"%string,(Some 0%N)); ("Balance"%string,(Some 6%N)); ("BlockNumber"%string,(Some 4%N)); ("LeasePeriod"%string,(Some 4%N))] (TComposite [(Field (Some "depositor"%string) 0%N (Some "AccountId"%string) []); (Field (Some "verifier"%string) 338%N (Some "Option<MultiSigner>"%string) []); (Field (Some "deposit"%string) 6%N (Some "Balance"%string) []); (Field (Some "raised"%string) 6%N (Some "Balance"%string) []); (Field (Some "end"%string) 4%N (Some "BlockNumber"%string) []); (Field (Some "cap"%string) 6%N (Some "Balance"%string) []); (Field (Some "last_contribution"%string) 806%N (Some "LastContribution<BlockNumber>"%string) []); (Field (Some "first_period"%string) 4%N (Some "LeasePeriod"%string) []); (Field (Some "last_period"%string) 4%N (Some "LeasePeriod"%string) []); (Field (Some "fund_index"%string) 4%N (Some "FundIndex"%string) [])]) []).
Definition md_t806 : ty := 
 (Ty ["polkadot_runtime_common"%string; "crowdloan"%string; "LastContribution"%string] [("BlockNumber"%string,(Some 4%N))] (TVariant [(Variant "Never"%string [] 0%N []); (Variant "PreEnding"%string [(Field None 4%N (Some "u32"%string) [])] 1%N []); (Variant "Ending"%string [(Field None 4%N (Some "BlockNumber"%string) [])] 2%N [])]) []).
Definition md_t807 : ty := 
 (Ty ["polkadot_runtime_common"%string; "crowdloan"%string; "pallet"%string; "Error"%string] [("T"%string,None)] (TVariant [(Variant "FirstPeriodInPast"%string [] 0%N []); (Variant "FirstPeriodTooFarInFuture"%string [] 1%N []); (Variant "LastPeriodBeforeFirstPeriod"%string [] 2%N []); (Variant "LastPeriodTooFarInFuture"%string [] 3%N []); (Variant "CannotEndInPast"%string [] 4%N []); (Variant "EndTooFarInFuture"%string [] 5%N []); (Variant "Overflow"%string [] 6%N []); (Variant "ContributionTooSmall"%string [] 7%N []); (Variant "InvalidParaId"%string [] 8%N []); (Variant "CapExceeded"%string [] 9%N []); (Variant "ContributionPeriodOver"%string [] 10%N []); (Variant "InvalidOrigin"%string [] 11%N []); (Variant "NotParachain"%string [] 12%N []); (Variant "LeaseActive"%string [] 13%N []); (Variant "BidOrLeaseActive"%string [] 14%N []); (Variant "FundNotEnded"%string [] 15%N []); (Variant "NoContributions"%string [] 16%N []); (Variant "NotReadyToDissolve"%string [] 17%N []); (Variant "InvalidSignature"%string [] 18%N []); (Variant "MemoTooLarge"%string [] 19%N []); (Variant "AlreadyInNewRaise"%string [] 20%N []); (Variant "VrfDelayInProgress"%string [] 21%N []); (Variant "NoLeasePeriod"%string [] 22%N [])]) []).
Definition md_t808 : ty := 
 (Ty ["polkadot_runtime_parachains"%string; "coretime"%string; "pallet"%string; "Error"%string] [("T"%string,None)] (TVariant [(Variant "NotBroker"%string [] 0%N []); (Variant "RequestedFutureRevenue"%string [] 1%N []); (Variant "AssetTransferFailed"%string [] 2%N [])]) []).
Definition md_t809 : ty := 
 (Ty ["pallet_xcm"%string; "pallet"%string; "QueryStatus"%string] [("BlockNumber"%string,(Some 4%N))] (TVariant [(Variant "Pending"%string [(Field (Some "responder"%string) 81%N (Some "VersionedLocation"%string) []); (Field (Some "maybe_match_querier"%string) 810%N (Some "Option<VersionedLocation>"%string) []); (Field (Some "maybe_notify"%string) 811%N (Some "Option<(u8, u8)>"%string) []); (Field (Some "timeout"%string) 4%N (Some "BlockNumber"%string) [])] 0%N []); (Variant "VersionNotifier"%string [(Field (Some "origin"%string) 81%N (Some "VersionedLocation"%string) []); (Field (Some "is_active"%string) 8%N (Some "bool"%string) [])] 1%N []); (Variant "Ready"%string [(Field (Some "response"%string) 813%N (Some "VersionedResponse"%string) []); (Field (Some "at"%string) 4%N (Some "BlockNumber"%string) [])] 2%N [])]) []).
Definition md_t810 : ty := 
 (Ty ["Option"%string] [("T"%string,(Some 81%N))] (TVariant [(Variant "None"%string [] 0%N []); (Variant "Some"%string [(Field None 81%N None [])] 1%N [])]) []).
Definition md_t811 : ty := 
 (Ty ["Option"%string] [("T"%string,(Some 812%N))] (TVariant [(Variant "None"%string [] 0%N []); (Variant "Some"%string [(Field None 812%N None [])] 1%N [])]) []).
Definition md_t812 : ty := 
 (Ty [] [] (TTuple [2%N; 2%N]) []).
Definition md_t813 : ty := 
 (Ty ["xcm"%string; "VersionedResponse"%string] [] (TVariant [(Variant "V2"%string [(Field None 365%N (Some "v2::Response"%string) [])] 2%N []); (Variant "V3"%string [(Field None 383%N (Some "v3::Response"%string) [])] 3%N []); (Variant "V4"%string [(Field None 408%N (Some "v4::Response"%string) [])] 4%N [])]) []).
Definition md_t814 : ty := 
 (Ty [] [] (TTuple [4%N; 81%N]) []).
Definition md_t815 : ty := 
 (Ty [] [] (TTuple [12%N; 10%N; 4%N]) []).
Definition md_t816 : ty := 
 (Ty ["bounded_collections"%string; "bounded_vec"%string; "BoundedVec"%string] [("T"%string,(Some 817%N)); ("S"%string,None)] (TComposite [(Field None 818%N (Some "Vec<T>"%string) [])]) []).
Definition md_t817 : ty := 
 (Ty [] [] (TTuple [81%N; 4%N]) []).
Definition md_t818 : ty := 
 (Ty [] [] (TSequence 817%N) []).
Definition md_t819 : ty := 
 (Ty ["pallet_xcm"%string; "pallet"%string; "VersionMigrationStage"%string] [] (TVariant [(Variant "MigrateSupportedVersion"%string [] 0%N []); (Variant "MigrateVersionNotifiers"%string [] 1%N []); (Variant "NotifyCurrentTargets"%string [(Field None 820%N (Some "Option<Vec<u8>>"%string) [])] 2%N []); (Variant "MigrateAndNotifyOldTargets"%string [] 3%N [])]) []).
Definition md_t820 : ty := 
 (Ty ["Option"%string] [("T"%string,(Some 14%N))] (TVariant [(Variant "None"%string [] 0%N []); (Variant "Some"%string [(Field None 14%N None [])] 1%N [])]) []).
Definition md_t821 : ty := 
 (Ty [] [] (TTuple [4%N; 0%N; 431%N]) []).
Definition md_t822 : ty := 
 (Ty ["pallet_xcm"%string; "pallet"%string; "RemoteLockedFungibleRecord"%string] [("ConsumerIdentifier"%string,(Some 35%N)); ("MaxConsumers"%string,None)] (TComposite [(Field (Some "amount"%string) 6%N (Some "u128"%string) []); (Field (Some "owner"%string) 81%N (Some "VersionedLocation"%string) []); (Field (Some "locker"%string) 81%N (Some "VersionedLocation"%string) []); (Field (Some "consumers"%string) 823%N (Some "BoundedVec<(ConsumerIdentifier, u128), MaxConsumers>"%string) [])]) []).
Definition md_t823 : ty := 
 (Ty ["bounded_collections"%string; "bounded_vec"%string; "BoundedVec"%string] [("T"%string,(Some 824%N)); ("S"%string,None)] (TComposite [(Field None 825%N (Some "Vec<T>"%string) [])]) []).
Definition md_t824 : ty := 
 (Ty [] [] (TTuple [35%N; 6%N]) []).
Definition md_t825 : ty := 
 (Ty [] [] (TSequence 824%N) []).
Definition md_t826 : ty := 
 (Ty ["bounded_collections"%string; "bounded_vec"%string; "BoundedVec"%string] [("T"%string,(Some 827%N)); ("S"%string,None)] (TComposite [(Field None 828%N (Some "Vec<T>"%string) [])]) []).
Definition md_t827 : ty := 
 (Ty [] [] (TTuple [6%N; 81%N]) []).
Definition md_t828 : ty := 
 (Ty [] [] (TSequence 827%N) []).
Definition md_t829 : ty := 
 (Ty ["pallet_xcm"%string; "pallet"%string; "Error"%string] [("T"%string,None)] (TVariant [(Variant "Unreachable"%string [] 0%N []); (Variant "SendFailure"%string [] 1%N []); (Variant "Filtered"%string [] 2%N []); (Variant "UnweighableMessage"%string [] 3%N []); (Variant "DestinationNotInvertible"%string [] 4%N []); (Variant "Empty"%string [] 5%N []); (Variant "CannotReanchor"%string [] 6%N []); (Variant "TooManyAssets"%string [] 7%N []); (Variant "InvalidOrigin"%string [] 8%N []); (Variant "BadVersion"%string [] 9%N []); (Variant "BadLocation"%string [] 10%N []); (Variant "NoSubscription"%string [] 11%N []); (Variant "AlreadySubscribed"%string [] 12%N []); (Variant "CannotCheckOutTeleport"%string [] 13%N []); (Variant "LowBalance"%string [] 14%N []); (Variant "TooManyLocks"%string [] 15%N []); (Variant "AccountNotSovereign"%string [] 16%N []); (Variant "FeesNotMet"%string [] 17%N []); (Variant "LockNotFound"%string [] 18%N []); (Variant "InUse"%string [] 19%N []); (Variant "InvalidAssetUnknownReserve"%string [] 21%N []); (Variant "InvalidAssetUnsupportedReserve"%string [] 22%N []); (Variant "TooManyReserves"%string [] 23%N []); (Variant "LocalExecutionIncomplete"%string [] 24%N [])]) []).
Definition md_t830 : ty := 
 (Ty ["pallet_message_queue"%string; "BookState"%string] [("MessageOrigin"%string,(Some 433%N))] (TComposite [(Field (Some "begin"%string) 4%N (Some "PageIndex"%string) []); (Field (Some "end"%string) 4%N (Some "PageIndex"%string) []); (Field (Some "count"%string) 4%N (Some "PageIndex"%string) []); (Field (Some "ready_neighbours"%string) 831%N (Some "Option<Neighbours<MessageOrigin>>"%string) []); (Field (Some "message_count"%string) 12%N (Some "u64"%string) []); (Field (Some "size"%string) 12%N (Some "u64"%string) [])]) []).
Definition md_t831 : ty := 
 (Ty ["Option"%string] [("T"%string,(Some 832%N))] (TVariant [(Variant "None"%string [] 0%N []); (Variant "Some"%string [(Field None 832%N None [])] 1%N [])]) []).
Definition md_t832 : ty := 
 (Ty ["pallet_message_queue"%string; "Neighbours"%string] [("MessageOrigin"%string,(Some 433%N))] (TComposite [(Field (Some "prev"%string) 433%N (Some "MessageOrigin"%string) []); (Field (Some "next"%string) 433%N (Some "MessageOrigin"%string) [])]) []).
Definition md_t833 : ty := 
 (Ty [] [] (TTuple [433%N; 4%N]) []).
Definition md_t834 : ty := 
 (Ty ["pallet_message_queue"%string; "Page"%string] [("Size"%string,(Some 4%N)); ("HeapSize"%string,None)] (TComposite [(Field (Some "remaining"%string) 4%N (Some "Size"%string) []); (Field (Some "remaining_size"%string) 4%N (Some "Size"%string) []); (Field (Some "first_index"%string) 4%N (Some "Size"%string) []); (Field (Some "first"%string) 4%N (Some "Size"%string) []); (Field (Some "last"%string) 4%N (Some "Size"%string) []); (Field (Some "heap"%string) 835%N (Some "BoundedVec<u8, IntoU32<HeapSize, Size>>"%string) [])]) []).
Definition md_t835 : ty := 
 (Ty ["bounded_collections"%string; "bounded_vec"%string; "BoundedVec"%string] [("T"%string,(Some 2%N)); ("S"%string,None)] (TComposite [(Field None 14%N (Some "Vec<T>"%string) [])]) []).
Definition md_t836 : ty := 
 (Ty ["pallet_message_queue"%string; "pallet"%string; "Error"%string] [("T"%string,None)] (TVariant [(Variant "NotReapable"%string [] 0%N []); (Variant "NoPage"%string [] 1%N []); (Variant "NoMessage"%string [] 2%N []); (Variant "AlreadyProcessed"%string [] 3%N []); (Variant "Queued"%string [] 4%N []); (Variant "InsufficientWeight"%string [] 5%N []); (Variant "TemporarilyUnprocessable"%string [] 6%N []); (Variant "QueuePaused"%string [] 7%N []); (Variant "RecursiveDisallowed"%string [] 8%N [])]) []).
Definition md_t837 : ty := 
 (Ty ["pallet_asset_rate"%string; "pallet"%string; "Error"%string] [("T"%string,None)] (TVariant [(Variant "UnknownAssetKind"%string [] 0%N []); (Variant "AlreadyExists"%string [] 1%N []); (Variant "Overflow"%string [] 2%N [])]) []).
Definition md_t838 : ty := 
 (Ty ["bounded_collections"%string; "bounded_vec"%string; "BoundedVec"%string] [("T"%string,(Some 138%N)); ("S"%string,None)] (TComposite [(Field None 839%N (Some "Vec<T>"%string) [])]) []).
Definition md_t839 : ty := 
 (Ty [] [] (TSequence 138%N) []).
Definition md_t840 : ty := 
 (Ty ["pallet_beefy"%string; "pallet"%string; "Error"%string] [("T"%string,None)] (TVariant [(Variant "InvalidKeyOwnershipProof"%string [] 0%N []); (Variant "InvalidEquivocationProof"%string [] 1%N []); (Variant "DuplicateOffenceReport"%string [] 2%N []); (Variant "InvalidConfiguration"%string [] 3%N [])]) []).
Definition md_t841 : ty := 
 (Ty ["sp_consensus_beefy"%string; "mmr"%string; "BeefyAuthoritySet"%string] [("AuthoritySetCommitment"%string,(Some 13%N))] (TComposite [(Field (Some "id"%string) 12%N (Some "crate::ValidatorSetId"%string) []); (Field (Some "len"%string) 4%N (Some "u32"%string) []); (Field (Some "keyset_commitment"%string) 13%N (Some "AuthoritySetCommitment"%string) [])]) []).
Definition md_t842 : ty := 
 (Ty [] [] (TTuple [843%N; 844%N; 845%N; 846%N; 847%N; 849%N; 850%N; 851%N; 852%N; 853%N]) []).
Definition md_t843 : ty := 
 (Ty ["frame_system"%string; "extensions"%string; "check_non_zero_sender"%string; "CheckNonZeroSender"%string] [("T"%string,None)] (TComposite []) []).
Definition md_t844 : ty := 
 (Ty ["frame_system"%string; "extensions"%string; "check_spec_version"%string; "CheckSpecVersion"%string] [("T"%string,None)] (TComposite []) []).
Definition md_t845 : ty := 
 (Ty ["frame_system"%string; "extensions"%string; "check_tx_version"%string; "CheckTxVersion"%string] [("T"%string,None)] (TComposite []) []).
Definition md_t846 : ty := 
 (Ty ["frame_system"%string; "extensions"%string; "check_genesis"%string; "CheckGenesis"%string] [("T"%string,None)] (TComposite []) []).
Definition md_t847 : ty := 
 (Ty ["frame_system"%string; "extensions"%string; "check_mortality"%string; "CheckMortality"%string] [("T"%string,None)] (TComposite [(Field None 848%N (Some "Era"%string) [])]) []).
Definition md_t848 : ty := 
 (Ty ["sp_runtime"%string; "generic"%string; "era"%string; "Era"%string] [] (TVariant [(Variant "Immortal"%string [] 0%N []); (Variant "Mortal1"%string [(Field None 2%N None [])] 1%N []); (Variant "Mortal2"%string [(Field None 2%N None [])] 2%N []); (Variant "Mortal3"%string [(Field None 2%N None [])] 3%N []); (Variant "Mortal4"%string [(Field None 2%N None [])] 4%N []); (Variant "Mortal5"%string [(Field None 2%N None [])] 5%N []); (Variant "Mortal6"%string [(Field None 2%N None [])] 6%N []); (Variant "Mortal7"%string [(Field None 2%N None [])] 7%N []); (Variant "Mortal8"%string [(Field None 2%N None [])] 8%N []); (Variant "Mortal9"%string [(Field None 2%N None [])] 9%N []); (Variant "Mortal10"%string [(Field None 2%N None [])] 10%N []); (Variant "Mortal11"%string [(Field None 2%N None [])] 11%N []); (Variant "Mortal12"%string [(Field None 2%N None [])] 12%N []); (Variant "Mortal13"%string [(Field None 2%N None [])] 13%N []); (Variant "Mortal14"%string [(Field None 2%N None [])] 14%N []); (Variant "Mortal15"%string [(Field None 2%N None [])] 15%N []); (Variant "Mortal16"%string [(Field None 2%N None [])] 16%N []); (Variant "Mortal17"%string [(Field None 2%N None [])] 17%N []); (Variant "Mortal18"%string [(Field None 2%N None [])] 18%N []); (Variant "Mortal19"%string [(Field None 2%N None [])] 19%N []); (Variant "Mortal20"%string [(Field None 2%N None [])] 20%N []); (Variant "Mortal21"%string [(Field None 2%N None [])] 21%N []); (Variant "Mortal22"%string [(Field None 2%N None [])] 22%N []); (Variant "Mortal23"%string [(Field None 2%N None [])] 23%N []); (Variant "Mortal24"%string [(Field None 2%N None [])] 24%N []); (Variant "Mortal25"%string [(Field None 2%N None [])] 25%N []); (Variant "Mortal26"%string [(Field None 2%N None [])] 26%N []); (Variant "Mortal27"%string [(Field None 2%N None [])] 27%N []); (Variant "Mortal28"%string [(Field None 2%N None [])] 28%N []); (Variant "Mortal29"%string [(Field None 2%N None [])] 29%N []); (Variant "Mortal30"%string [(Field None 2%N None [])] 30%N []); (Variant "Mortal31"%string [(Field None 2%N None [])] 31%N []); (Variant "Mortal32"%string [(Field None 2%N None [])] 32%N []); (Variant "Mortal33"%string [(Field None 2%N None [])] 33%N []); (Variant "Mortal34"%string [(Field None 2%N None [])] 34%N []); (Variant "Mortal35"%string [(Field None 2%N None [])] 35%N []); (Variant "Mortal36"%string [(Field None 2%N None [])] 36%N []); (Variant "Mortal37"%string [(Field None 2%N None [])] 37%N []); (Variant "Mortal38"%string [(Field None 2%N None [])] 38%N []); (Variant "Mortal39"%string [(Field None 2%N None [])] 39%N []); (Variant "Mortal40"%string [(Field None 2%N None [])] 40%N []); (Variant "Mortal41"%string [(Field None 2%N None [])] 41%N []); (Variant "Mortal42"%string [(Field None 2%N None [])] 42%N []); (Variant "Mortal43"%string [(Field None 2%N None [])] 43%N []); (Variant "Mortal44"%string [(Field None 2%N None [])] 44%N []); (Variant "Mortal45"%string [(Field None 2%N None [])] 45%N []); (Variant "Mortal46"%string [(Field None 2%N None [])] 46%N []); (Variant "Mortal47"%string [(Field None 2%N None [])] 47%N []); (Variant "Mortal48"%string [(Field None 2%N None [])] 48%N []); (Variant "Mortal49"%string [(Field None 2%N None [])] 49%N []); (Variant "Mortal50"%string [(Field None 2%N None [])] 50%N []); (Variant "Mortal51"%string [(Field None 2%N None [])] 51%N []); (Variant "Mortal52"%string [(Field None 2%N None [])] 52%N []); (Variant "Mortal53"%string [(Field None 2%N None [])] 53%N []); (Variant "Mortal54"%string [(Field None 2%N None [])] 54%N []); (Variant "Mortal55"%string [(Field None 2%N None [])] 55%N []); (Variant "Mortal56"%string [(Field None 2%N None [])] 56%N []); (Variant "Mortal57"%string [(Field None 2%N None [])] 57%N []); (Variant "Mortal58"%string [(Field None 2%N None [])] 58%N []); (Variant "Mortal59"%string [(Field None 2%N None [])] 59%N []); (Variant "Mortal60"%string [(Field None 2%N None [])] 60%N []); (Variant "Mortal61"%string [(Field None 2%N None [])] 61%N []); (Variant "Mortal62"%string [(Field None 2%N None [])] 62%N []); (Variant "Mortal63"%string [(Field None 2%N None [])] 63%N []); (Variant "Mortal64"%string [(Field None 2%N None [])] 64%N []); (Variant "Mortal65"%string [(Field None 2%N None [])] 65%N []); (Variant "Mortal66"%string [(Field None 2%N None [])] 66%N []); (Variant "Mortal67"%string [(Field None 2%N None [])] 67%N []); (Variant "Mortal68"%string [(Field None 2%N None [])] 68%N []); (Variant "Mortal69"%string [(Field None 2%N None [])] 69%N []); (Variant "Mortal70"%string [(Field None 2%N None [])] 70%N []); (Variant "Mortal71"%string [(Field None 2%N None [])] 71%N []); (Variant "Mortal72"%string [(Field None 2%N None [])] 72%N []); (Variant "Mortal73"%string [(Field None 2%N None [])] 73%N []); (Variant "Mortal74"%string [(Field None 2%N None [])] 74%N []); (Variant "Mortal75"%string [(Field None 2%N None [])] 75%N []); (Variant "Mortal76"%string [(Field None 2%N None [])] 76%N []); (Variant "Mortal77"%string [(Field None 2%N None [])] 77%N []); (Variant "Mortal78"%string [(Field None 2%N None [])] 78%N []); (Variant "Mortal79"%string [(Field None 2%N None [])] 79%N []); (Variant "Mortal80"%string [(Field None 2%N None [])] 80%N []); (Variant "Mortal81"%string [(Field None 2%N None [])] 81%N []); (Variant "Mortal82"%string [(Field None 2%N None [])] 82%N []); (Variant "Mortal83"%string [(Field None 2%N None [])] 83%N []); (Variant "Mortal84"%string [(Field None 2%N None [])] 84%N []); (Variant "Mortal85"%string [(Field None 2%N None [])] 85%N []); (Variant "Mortal86"%string [(Field None 2%N None [])] 86%N []); (Variant "Mortal87"%string [(Field None 2%N None [])] 87%N []); (Variant "Mortal88"%string [(Field None 2%N None [])] 88%N []); (Variant "Mortal89"%string [(Field None 2%N None [])] 89%N []); (Variant "Mortal90"%string [(Field None 2%N None [])] 90%N []); (Variant "Mortal91"%string [(Field None 2%N None [])] 91%N []); (Variant "Mortal92"%string [(Field None 2%N None [])] 92%N []); (Variant "Mortal93"%string [(Field None 2%N None [])] 93%N []); (Variant "Mortal94"%string [(Field None 2%N None [])] 94%N []); (Variant "Mortal95"%string [(Field None 2%N None [])] 95%N []); (Variant "Mortal96"%string [(Field None 2%N None [])] 96%N []); (Variant "Mortal97"%string [(Field None 2%N None [])] 97%N []); (Variant "Mortal98"%string [(Field None 2%N None [])] 98%N []); (Variant "Mortal99"%string [(Field None 2%N None [])] 99%N []); (Variant "Mortal100"%string [(Field None 2%N None [])] 100%N []); (Variant "Mortal101"%string [(Field None 2%N None [])] 101%N []); (Variant "Mortal102"%string [(Field None 2%N None [])] 102%N []); (Variant "Mortal103"%string [(Field None 2%N None [])] 103%N []); (Variant "Mortal104"%string [(Field None 2%N None [])] 104%N []); (Variant "Mortal105"%string [(Field None 2%N None [])] 105%N []); (Variant "Mortal106"%string [(Field None 2%N None [])] 106%N []); (Variant "Mortal107"%string [(Field None 2%N None [])] 107%N []); (Variant "Mortal108"%string [(Field None 2%N None [])] 108%N []); (Variant "Mortal109"%string [(Field None 2%N None [])] 109%N []); (Variant "Mortal110"%string [(Field None 2%N None [])] 110%N []); (Variant "Mortal111"%string [(Field None 2%N None [])] 111%N []); (Variant "Mortal112"%string [(Field None 2%N None [])] 112%N []); (Variant "Mortal113"%string [(Field None 2%N None [])] 113%N []); (Variant "Mortal114"%string [(Field None 2%N None [])] 114%N []); (Variant "Mortal115"%string [(Field None 2%N None [])] 115%N []); (Variant "Mortal116"%string [(Field None 2%N None [])] 116%N []); (Variant "Mortal117"%string [(Field None 2%N None [])] 117%N []); (Variant "Mortal118"%string [(Field None 2%N None [])] 118%N []); (Variant "Mortal119"%string [(Field None 2%N None [])] 119%N []); (Variant "Mortal120"%string [(Field None 2%N None [])] 120%N []); (Variant "Mortal121"%string [(Field None 2%N None [])] 121%N []); (Variant "Mortal122"%string [(Field None 2%N None [])] 122%N []); (Variant "Mortal123"%string [(Field None 2%N None [])] 123%N []); (Variant "Mortal124"%string [(Field None 2%N None [])] 124%N []); (Variant "Mortal125"%string [(Field None 2%N None [])] 125%N []); (Variant "Mortal126"%string [(Field None 2%N None [])] 126%N []); (Variant "Mortal127"%string [(Field None 2%N None [])] 127%N []); (Variant "Mortal128"%string [(Field None 2%N None [])] 128%N []); (Variant "Mortal129"%string [(Field None 2%N None [])] 129%N []); (Variant "Mortal130"%string [(Field None 2%N None [])] 130%N []); (Variant "Mortal131"%string [(Field None 2%N None [])] 131%N []); (Variant "Mortal132"%string [(Field None 2%N None [])] 132%N []); (Variant "Mortal133"%string [(Field None 2%N None [])] 133%N []); (Variant "Mortal134"%string [(Field None 2%N None [])] 134%N []); (Variant "Mortal135"%string [(Field None 2%N None [])] 135%N []); (Variant "Mortal136"%string [(Field None 2%N None [])] 136%N []); (Variant "Mortal137"%string [(Field None 2%N None [])] 137%N []); (Variant "Mortal138"%string [(Field None 2%N None [])] 138%N []); (Variant "Mortal139"%string [(Field None 2%N None [])] 139%N []); (Variant "Mortal140"%string [(Field None 2%N None [])] 140%N []); (Variant "Mortal141"%string [(Field None 2%N None [])] 141%N []); (Variant "Mortal142"%string [(Field None 2%N None [])] 142%N []); (Variant "Mortal143"%string [(Field None 2%N None [])] 143%N []); (Variant "Mortal144"%string [(Field None 2%N None [])] 144%N []); (Variant "Mortal145"%string [(Field None 2%N None [])] 145%N []); (Variant "Mortal146"%string [(Field None 2%N None [])] 146%N []); (Variant "Mortal147"%string [(Field None 2%N None [])] 147%N []); (Variant "Mortal148"%string [(Field None 2%N None [])] 148%N []); (Variant "Mortal149"%string [(Field None 2%N None [])] 149%N []); (Variant "Mortal150"%string [(Field None 2%N None [])] 150%N []); (Variant "Mortal151"%string [(Field None 2%N None [])] 151%N []); (Variant "Mortal152"%string [(Field None 2%N None [])] 152%N []); (Variant "Mortal153"%string [(Field None 2%N None [])] 153%N []); (Variant "Mortal154"%string [(Field None 2%N None [])] 154%N []); (Variant "Mortal155"%string [(Field None 2%N None [])] 155%N []); (Variant "Mortal156"%string [(Field None 2%N None [])] 156%N []); (Variant "Mortal157"%string [(Field None 2%N None [])] 157%N []); (Variant "Mortal158"%string [(Field None 2%N None [])] 158%N []); (Variant "Mortal159"%string [(Field None 2%N None [])] 159%N []); (Variant "Mortal160"%string [(Field None 2%N None [])] 160%N []); (Variant "Mortal161"%string [(Field None 2%N None [])] 161%N []); (Variant "Mortal162"%string [(Field None 2%N None [])] 162%N []); (Variant "Mortal163"%string [(Field None 2%N None [])] 163%N []); (Variant "Mortal164"%string [(Field None 2%N None [])] 164%N []); (Variant "Mortal165"%string [(Field None 2%N None [])] 165%N []); (Variant "Mortal166"%string [(Field None 2%N None [])] 166%N []); (Variant "Mortal167"%string [(Field None 2%N None [])] 167%N []); (Variant "Mortal168"%string [(Field None 2%N None [])] 168%N []); (Variant "Mortal169"%string [(Field None 2%N None [])] 169%N []); (Variant "Mortal170"%string [(Field None 2%N None [])] 170%N []); (Variant "Mortal171"%string [(Field None 2%N None [])] 171%N []); (Variant "Mortal172"%string [(Field None 2%N None [])] 172%N []); (Variant "Mortal173"%string [(Field None 2%N None [])] 173%N []); (Variant "Mortal174"%string [(Field None 2%N None [])] 174%N []); (Variant "Mortal175"%string [(Field None 2%N None [])] 175%N []); (Variant "Mortal176"%string [(Field None 2%N None [])] 176%N []); (Variant "Mortal177"%string [(Field None 2%N None [])] 177%N []); (Variant "Mortal178"%string [(Field None 2%N None [])] 178%N []); (Variant "Mortal179"%string [(Field None 2%N None [])] 179%N []); (Variant "Mortal180"%string [(Field None 2%N None [])] 180%N []); (Variant "Mortal181"%string [(Field None 2%N None [])] 181%N []); (Variant "Mortal182"%string [(Field None 2%N None [])] 182%N []); (Variant "Mortal183"%string [(Field None 2%N None [])] 183%N []); (Variant "Mortal184"%string [(Field None 2%N None [])] 184%N []); (Variant "Mortal185"%string [(Field None 2%N None [])] 185%N []); (Variant "Mortal186"%string [(Field None 2%N None [])] 186%N []); (Variant "Mortal187"%string [(Field None 2%N None [])] 187%N []); (Variant "Mortal188"%string [(Field None 2%N None [])] 188%N []); (Variant "Mortal189"%string [(Field None 2%N None [])] 189%N []); (Variant "Mortal190"%string [(Field None 2%N None [])] 190%N []); (Variant "Mortal191"%string [(Field None 2%N None [])] 191%N []); (Variant "Mortal192"%string [(Field None 2%N None [])] 192%N []); (Variant "Mortal193"%string [(Field None 2%N None [])] 193%N []); (Variant "Mortal194"%string [(Field None 2%N None [])] 194%N []); (Variant "Mortal195"%string [(Field None 2%N None [])] 195%N []); (Variant "Mortal196"%string [(Field None 2%N None [])] 196%N []); (Variant "Mortal197"%string [(Field None 2%N None [])] 197%N []); (Variant "Mortal198"%string [(Field None 2%N None [])] 198%N []); (Variant "Mortal199"%string [(Field None 2%N None [])] 199%N []); (Variant "Mortal200"%string [(Field None 2%N None [])] 200%N []); (Variant "Mortal201"%string [(Field None 2%N None [])] 201%N []); (Variant "Mortal202"%string [(Field None 2%N None [])] 202%N []); (Variant "Mortal203"%string [(Field None 2%N None [])] 203%N []); (Variant "Mortal204"%string [(Field None 2%N None [])] 204%N []); (Variant "Mortal205"%string [(Field None 2%N None [])] 205%N []); (Variant "Mortal206"%string [(Field None 2%N None [])] 206%N []); (Variant "Mortal207"%string [(Field None 2%N None [])] 207%N []); (Variant "Mortal208"%string [(Field None 2%N None [])] 208%N []); (Variant "Mortal209"%string [(Field None 2%N None [])] 209%N []); (Variant "Mortal210"%string [(Field None 2%N None [])] 210%N []); (Variant "Mortal211"%string [(Field None 2%N None [])] 211%N []); (Variant "Mortal212"%string [(Field None 2%N None [])] 212%N []); (Variant "Mortal213"%string [(Field None 2%N None [])] 213%N []); (Variant "Mortal214"%string [(Field None 2%N None [])] 214%N []); (Variant "Mortal215"%string [(Field None 2%N None [])] 215%N []); (Variant "Mortal216"%string [(Field None 2%N None [])] 216%N []); (Variant "Mortal217"%string [(Field None 2%N None [])] 217%N []); (Variant "Mortal218"%string [(Field None 2%N None [])] 218%N []); (Variant "Mortal219"%string [(Field None 2%N None [])] 219%N []); (Variant "Mortal220"%string [(Field None 2%N None [])] 220%N []); (Variant "Mortal221"%string [(Field None 2%N None [])] 221%N []); (Variant "Mortal222"%string [(Field None 2%N None [])] 222%N []); (Variant "Mortal223"%string [(Field None 2%N None [])] 223%N []); (Variant "Mortal224"%string [(Field None 2%N None [])] 224%N []); (Variant "Mortal225"%string [(Field None 2%N None [])] 225%N []); (Variant "Mortal226"%string [(Field None 2%N None [])] 226%N []); (Variant "Mortal227"%string [(Field None 2%N None [])] 227%N []); (Variant "Mortal228"%string [(Field None 2%N None [])] 228%N []); (Variant "Mortal229"%string [(Field None 2%N None [])] 229%N []); (Variant "Mortal230"%string [(Field None 2%N None [])] 230%N []); (Variant "Mortal231"%string [(Field None 2%N None [])] 231%N []); (Variant "Mortal232"%string [(Field None 2%N None [])] 232%N []); (Variant "Mortal233"%string [(Field None 2%N None [])] 233%N []); (Variant "Mortal234"%string [(Field None 2%N None [])] 234%N []); (Variant "Mortal235"%string [(Field None 2%N None [])] 235%N []); (Variant "Mortal236"%string [(Field None 2%N None [])] 236%N []); (Variant "Mortal237"%string [(Field None 2%N None [])] 237%N []); (Variant "Mortal238"%string [(Field None 2%N None [])] 238%N []); (Variant "Mortal239"%string [(Field None 2%N None [])] 239%N []); (Variant "Mortal240"%string [(Field None 2%N None [])] 240%N []); (Variant "Mortal241"%string [(Field None 2%N None [])] 241%N []); (Variant "Mortal242"%string [(Field None 2%N None [])] 242%N []); (Variant "Mortal243"%string [(Field None 2%N None [])] 243%N []); (Variant "Mortal244"%string [(Field None 2%N None [])] 244%N []); (Variant "Mortal245"%string [(Field None 2%N None [])] 245%N []); (Variant "Mortal246"%string [(Field None 2%N None [])] 246%N []); (Variant "Mortal247"%string [(Field None 2%N None [])] 247%N []); (Variant "Mortal248"%string [(Field None 2%N None [])] 248%N []); (Variant "Mortal249"%string [(Field None 2%N None [])] 249%N []); (Variant "Mortal250"%string [(Field None 2%N None [])] 250%N []); (Variant "Mortal251"%string [(Field None 2%N None [])] 251%N []); (Variant "Mortal252"%string [(Field None 2%N None [])] 252%N []); (Variant "Mortal253"%string [(Field None 2%N None [])] 253%N []); (Variant "Mortal254"%string [(Field None 2%N None [])] 254%N []); (Variant "Mortal255"%string [(Field None 2%N None [])] 255%N [])]) []).
Definition md_t849 : ty := 
 (Ty ["frame_system"%string; "extensions"%string; "check_nonce"%string; "CheckNonce"%string] [("T"%string,None)] (TComposite [(Field None 59%N (Some "T::Nonce"%string) [])]) []).
Definition md_t850 : ty := 
 (Ty ["frame_system"%string; "extensions"%string; "check_weight"%string; "CheckWeight"%string] [("T"%string,None)] (TComposite []) []).
Definition md_t851 : ty := 
 (Ty ["pallet_transaction_payment"%string; "ChargeTransactionPayment"%string] [("T"%string,None)] (TComposite [(Field None 63%N (Some "BalanceOf<T>"%string) [])]) []).
Definition md_t852 : ty := 
 (Ty ["polkadot_runtime_common"%string; "claims"%string; "PrevalidateAttests"%string] [("T"%string,None)] (TComposite []) []).
Definition md_t853 : ty := 
 (Ty ["frame_metadata_hash_extension"%string; "CheckMetadataHash"%string] [("T"%string,None)] (TComposite [(Field (Some "mode"%string) 854%N (Some "Mode"%string) [])]) []).
Definition md_t854 : ty := 
 (Ty ["frame_metadata_hash_extension"%string; "Mode"%string] [] (TVariant [(Variant "Disabled"%string [] 0%N []); (Variant "Enabled"%string [] 1%N [])]) []).
Definition md_t855 : ty := 
 (Ty ["polkadot_runtime"%string; "Runtime"%string] [] (TComposite []) []).
Definition md_t856 : ty := 
 (Ty ["relay_common"%string; "apis"%string; "InflationInfo"%string] [] (TComposite [(Field (Some "inflation"%string) 174%N (Some "sp_runtime::Perquintill"%string) []); (Field (Some "next_mint"%string) 857%N (Some "(polkadot_primitives::Balance, polkadot_primitives::Balance)"%string) [])]) []).
Definition md_t857 : ty := 
 (Ty [] [] (TTuple [6%N; 6%N]) []).
Definition md_t858 : ty := 
 (Ty ["sp_runtime"%string; "generic"%string; "block"%string; "Block"%string] [("Header"%string,(Some 104%N)); ("Extrinsic"%string,(Some 859%N))] (TComposite [(Field (Some "header"%string) 104%N (Some "Header"%string) []); (Field (Some "extrinsics"%string) 860%N (Some "Vec<Extrinsic>"%string) [])]) []).
Definition md_t859 : ty := 
 (Ty ["sp_runtime"%string; "generic"%string; "unchecked_extrinsic"%string; "UncheckedExtrinsic"%string] [("Address"%string,(Some 113%N)); ("Call"%string,(Some 93%N)); ("Signature"%string,(Some 341%N)); ("Extra"%string,(Some 842%N))] (TComposite [(Field None 14%N None [])]) []).
Definition md_t860 : ty := 
 (Ty [] [] (TSequence 859%N) []).
Definition md_t861 : ty := 
 (Ty ["sp_runtime"%string; "ExtrinsicInclusionMode"%string] [] (TVariant [(Variant "AllExtrinsics"%string [] 0%N []); (Variant "OnlyInherents"%string [] 1%N [])]) []).
Definition md_t862 : ty := 
 (Ty ["sp_core"%string; "OpaqueMetadata"%string] [] (TComposite [(Field None 14%N (Some "Vec<u8>"%string) [])]) []).
Definition md_t863 : ty := 
 (Ty ["Option"%string] [("T"%string,(Some 862%N))] (TVariant [(Variant "None"%string [] 0%N []); (Variant "Some"%string [(Field None 862%N None [])] 1%N [])]) []).
Definition md_t864 : ty := 
 (Ty ["Result"%string] [("T"%string,(Some 34%N)); ("E"%string,(Some 865%N))] (TVariant [(Variant "Ok"%string [(Field None 34%N None [])] 0%N []); (Variant "Err"%string [(Field None 865%N None [])] 1%N [])]) []).
Definition md_t865 : ty := 
 (Ty ["sp_runtime"%string; "transaction_validity"%string; "TransactionValidityError"%string] [] (TVariant [(Variant "Invalid"%string [(Field None 866%N (Some "InvalidTransaction"%string) [])] 0%N []); (Variant "Unknown"%string [(Field None 867%N (Some "UnknownTransaction"%string) [])] 1%N [])]) []).
Definition md_t866 : ty := 
 (Ty ["sp_runtime"%string; "transaction_validity"%string; "InvalidTransaction"%string] [] (TVariant [(Variant "Call"%string [] 0%N []); (Variant "Payment"%string [] 1%N []); (Variant "Future"%string [] 2%N []); (Variant "Stale"%string [] 3%N []); (Variant "BadProof"%string [] 4%N []); (Variant "AncientBirthBlock"%string [] 5%N []); (Variant "ExhaustsResources"%string [] 6%N []); (Variant "Custom"%string [(Field None 2%N (Some "u8"%string) [])] 7%N []); (Variant "BadMandatory"%string [] 8%N []); (Variant "MandatoryValidation"%string [] 9%N []); (Variant "BadSigner"%string [] 10%N [])]) []).
Definition md_t867 : ty := 
 (Ty ["sp_runtime"%string; "transaction_validity"%string; "UnknownTransaction"%string] [] (TVariant [(Variant "CannotLookup"%string [] 0%N []); (Variant "NoUnsignedValidator"%string [] 1%N []); (Variant "Custom"%string [(Field None 2%N (Some "u8"%string) [])] 2%N [])]) []).
Definition md_t868 : ty := 
 (Ty ["sp_inherents"%string; "InherentData"%string] [] (TComposite [(Field (Some "data"%string) 869%N (Some "BTreeMap<InherentIdentifier, Vec<u8>>"%string) [])]) []).
Definition md_t869 : ty := 
 (Ty ["BTreeMap"%string] [("K"%string,(Some 364%N)); ("V"%string,(Some 14%N))] (TComposite [(Field None 870%N None [])]) []).
Definition md_t870 : ty := 
 (Ty [] [] (TSequence 871%N) []).
Definition md_t871 : ty := 
 (Ty [] [] (TTuple [364%N; 14%N]) []).
Definition md_t872 : ty := 
 (Ty ["sp_inherents"%string; "CheckInherentsResult"%string] [] (TComposite [(Field (Some "okay"%string) 8%N (Some "bool"%string) []); (Field (Some "fatal_error"%string) 8%N (Some "bool"%string) []); (Field (Some "errors"%string) 868%N (Some "InherentData"%string) [])]) []).
Definition md_t873 : ty := 
 (Ty ["sp_runtime"%string; "transaction_validity"%string; "TransactionSource"%string] [] (TVariant [(Variant "InBlock"%string [] 0%N []); (Variant "Local"%string [] 1%N []); (Variant "External"%string [] 2%N [])]) []).
Definition md_t874 : ty := 
 (Ty ["Result"%string] [("T"%string,(Some 875%N)); ("E"%string,(Some 865%N))] (TVariant [(Variant "Ok"%string [(Field None 875%N None [])] 0%N []); (Variant "Err"%string [(Field None 865%N None [])] 1%N [])]) []).
Definition md_t875 : ty := 
 (Ty ["sp_runtime"%string; "transaction_validity"%string; "ValidTransaction"%string] [] (TComposite [(Field (Some "priority"%string) 12%N (Some "TransactionPriority"%string) []); (Field (Some "requires"%string) 97%N (Some "Vec<TransactionTag>"%string) []); (Field (Some "provides"%string) 97%N (Some "Vec<TransactionTag>"%string) []); (Field (Some "longevity"%string) 12%N (Some "TransactionLongevity"%string) []); (Field (Some "propagate"%string) 8%N (Some "bool"%string) [])]) []).
Definition md_t876 : ty := 
 (Ty [] [] (TTuple [723%N; 877%N]) []).
Definition md_t877 : ty := 
 (Ty ["polkadot_primitives"%string; "v7"%string; "GroupRotationInfo"%string] [("N"%string,(Some 4%N))] (TComposite [(Field (Some "session_start_block"%string) 4%N (Some "N"%string) []); (Field (Some "group_rotation_frequency"%string) 4%N (Some "N"%string) []); (Field (Some "now"%string) 4%N (Some "N"%string) [])]) []).
Definition md_t878 : ty := 
 (Ty [] [] (TSequence 879%N) []).
Definition md_t879 : ty := 
 (Ty ["polkadot_primitives"%string; "v7"%string; "CoreState"%string] [("H"%string,(Some 13%N)); ("N"%string,(Some 4%N))] (TVariant [(Variant "Occupied"%string [(Field None 880%N (Some "OccupiedCore<H, N>"%string) [])] 0%N []); (Variant "Scheduled"%string [(Field None 882%N (Some "ScheduledCore"%string) [])] 1%N []); (Variant "Free"%string [] 2%N [])]) []).
Definition md_t880 : ty := 
 (Ty ["polkadot_primitives"%string; "v7"%string; "OccupiedCore"%string] [("H"%string,(Some 13%N)); ("N"%string,(Some 4%N))] (TComposite [(Field (Some "next_up_on_available"%string) 881%N (Some "Option<ScheduledCore>"%string) []); (Field (Some "occupied_since"%string) 4%N (Some "N"%string) []); (Field (Some "time_out_at"%string) 4%N (Some "N"%string) []); (Field (Some "next_up_on_time_out"%string) 881%N (Some "Option<ScheduledCore>"%string) []); (Field (Some "availability"%string) 292%N (Some "BitVec<u8, bitvec::order::Lsb0>"%string) []); (Field (Some "group_responsible"%string) 477%N (Some "GroupIndex"%string) []); (Field (Some "candidate_hash"%string) 315%N (Some "CandidateHash"%string) []); (Field (Some "candidate_descriptor"%string) 299%N (Some "CandidateDescriptor<H>"%string) [])]) []).
Definition md_t881 : ty := 
 (Ty ["Option"%string] [("T"%string,(Some 882%N))] (TVariant [(Variant "None"%string [] 0%N []); (Variant "Some"%string [(Field None 882%N None [])] 1%N [])]) []).
Definition md_t882 : ty := 
 (Ty ["polkadot_primitives"%string; "v7"%string; "ScheduledCore"%string] [] (TComposite [(Field (Some "para_id"%string) 163%N (Some "Id"%string) []); (Field (Some "collator"%string) 883%N (Some "Option<CollatorId>"%string) [])]) []).
Definition md_t883 : ty := 
 (Ty ["Option"%string] [("T"%string,(Some 300%N))] (TVariant [(Variant "None"%string [] 0%N []); (Variant "Some"%string [(Field None 300%N None [])] 1%N [])]) []).
Definition md_t884 : ty := 
 (Ty ["polkadot_primitives"%string; "v7"%string; "OccupiedCoreAssumption"%string] [] (TVariant [(Variant "Included"%string [] 0%N []); (Variant "TimedOut"%string [] 1%N []); (Variant "Free"%string [] 2%N [])]) []).
Definition md_t885 : ty := 
 (Ty ["Option"%string] [("T"%string,(Some 886%N))] (TVariant [(Variant "None"%string [] 0%N []); (Variant "Some"%string [(Field None 886%N None [])] 1%N [])]) []).
Definition md_t886 : ty := 
 (Ty ["polkadot_primitives"%string; "v7"%string; "PersistedValidationData"%string] [("H"%string,(Some 13%N)); ("N"%string,(Some 4%N))] (TComposite [(Field (Some "parent_head"%string) 310%N (Some "HeadData"%string) []); (Field (Some "relay_parent_number"%string) 4%N (Some "N"%string) []); (Field (Some "relay_parent_storage_root"%string) 13%N (Some "H"%string) []); (Field (Some "max_pov_size"%string) 4%N (Some "u32"%string) [])]) []).
Definition md_t887 : ty := 
 (Ty ["Option"%string] [("T"%string,(Some 888%N))] (TVariant [(Variant "None"%string [] 0%N []); (Variant "Some"%string [(Field None 888%N None [])] 1%N [])]) []).
Definition md_t888 : ty := 
 (Ty [] [] (TTuple [886%N; 302%N]) []).
Definition md_t889 : ty := 
 (Ty ["Option"%string] [("T"%string,(Some 298%N))] (TVariant [(Variant "None"%string [] 0%N []); (Variant "Some"%string [(Field None 298%N None [])] 1%N [])]) []).
Definition md_t890 : ty := 
 (Ty [] [] (TSequence 891%N) []).
Definition md_t891 : ty := 
 (Ty ["polkadot_primitives"%string; "v7"%string; "CandidateEvent"%string] [("H"%string,(Some 13%N))] (TVariant [(Variant "CandidateBacked"%string [(Field None 475%N (Some "CandidateReceipt<H>"%string) []); (Field None 310%N (Some "HeadData"%string) []); (Field None 476%N (Some "CoreIndex"%string) []); (Field None 477%N (Some "GroupIndex"%string) [])] 0%N []); (Variant "CandidateIncluded"%string [(Field None 475%N (Some "CandidateReceipt<H>"%string) []); (Field None 310%N (Some "HeadData"%string) []); (Field None 476%N (Some "CoreIndex"%string) []); (Field None 477%N (Some "GroupIndex"%string) [])] 1%N []); (Variant "CandidateTimedOut"%string [(Field None 475%N (Some "CandidateReceipt<H>"%string) []); (Field None 310%N (Some "HeadData"%string) []); (Field None 476%N (Some "CoreIndex"%string) [])] 2%N [])]) []).
Definition md_t892 : ty := 
 (Ty ["BTreeMap"%string] [("K"%string,(Some 163%N)); ("V"%string,(Some 755%N))] (TComposite [(Field None 893%N None [])]) []).
Definition md_t893 : ty := 
 (Ty [] [] (TSequence 894%N) []).
Definition md_t894 : ty := 
 (Ty [] [] (TTuple [163%N; 755%N]) []).
Definition md_t895 : ty := 
 (Ty ["Option"%string] [("T"%string,(Some 717%N))] (TVariant [(Variant "None"%string [] 0%N []); (Variant "Some"%string [(Field None 717%N None [])] 1%N [])]) []).
Definition md_t896 : ty := 
 (Ty ["Option"%string] [("T"%string,(Some 761%N))] (TVariant [(Variant "None"%string [] 0%N []); (Variant "Some"%string [(Field None 761%N None [])] 1%N [])]) []).
Definition md_t897 : ty := 
 (Ty ["Option"%string] [("T"%string,(Some 302%N))] (TVariant [(Variant "None"%string [] 0%N []); (Variant "Some"%string [(Field None 302%N None [])] 1%N [])]) []).
Definition md_t898 : ty := 
 (Ty [] [] (TSequence 899%N) []).
Definition md_t899 : ty := 
 (Ty [] [] (TTuple [4%N; 315%N; 765%N]) []).
Definition md_t900 : ty := 
 (Ty ["Option"%string] [("T"%string,(Some 278%N))] (TVariant [(Variant "None"%string [] 0%N []); (Variant "Some"%string [(Field None 278%N None [])] 1%N [])]) []).
Definition md_t901 : ty := 
 (Ty [] [] (TSequence 902%N) []).
Definition md_t902 : ty := 
 (Ty [] [] (TTuple [4%N; 315%N; 768%N]) []).
Definition md_t903 : ty := 
 (Ty ["Option"%string] [("T"%string,(Some 904%N))] (TVariant [(Variant "None"%string [] 0%N []); (Variant "Some"%string [(Field None 904%N None [])] 1%N [])]) []).
Definition md_t904 : ty := 
 (Ty ["polkadot_primitives"%string; "v7"%string; "slashing"%string; "OpaqueKeyOwnershipProof"%string] [] (TComposite [(Field None 14%N (Some "Vec<u8>"%string) [])]) []).
Definition md_t905 : ty := 
 (Ty ["Option"%string] [("T"%string,(Some 35%N))] (TVariant [(Variant "None"%string [] 0%N []); (Variant "Some"%string [(Field None 35%N None [])] 1%N [])]) []).
Definition md_t906 : ty := 
 (Ty ["Option"%string] [("T"%string,(Some 907%N))] (TVariant [(Variant "None"%string [] 0%N []); (Variant "Some"%string [(Field None 907%N None [])] 1%N [])]) []).
Definition md_t907 : ty := 
 (Ty ["polkadot_primitives"%string; "v7"%string; "async_backing"%string; "BackingState"%string] [("H"%string,(Some 13%N)); ("N"%string,(Some 4%N))] (TComposite [(Field (Some "constraints"%string) 908%N (Some "Constraints<N>"%string) []); (Field (Some "pending_availability"%string) 916%N (Some "Vec<CandidatePendingAvailability<H, N>>"%string) [])]) []).
Definition md_t908 : ty := 
 (Ty ["polkadot_primitives"%string; "v7"%string; "async_backing"%string; "Constraints"%string] [("N"%string,(Some 4%N))] (TComposite [(Field (Some "min_relay_parent_number"%string) 4%N (Some "N"%string) []); (Field (Some "max_pov_size"%string) 4%N (Some "u32"%string) []); (Field (Some "max_code_size"%string) 4%N (Some "u32"%string) []); (Field (Some "ump_remaining"%string) 4%N (Some "u32"%string) []); (Field (Some "ump_remaining_bytes"%string) 4%N (Some "u32"%string) []); (Field (Some "max_ump_num_per_candidate"%string) 4%N (Some "u32"%string) []); (Field (Some "dmp_remaining_messages"%string) 121%N (Some "Vec<N>"%string) []); (Field (Some "hrmp_inbound"%string) 909%N (Some "InboundHrmpLimitations<N>"%string) []); (Field (Some "hrmp_channels_out"%string) 910%N (Some "Vec<(Id, OutboundHrmpChannelLimitations)>"%string) []); (Field (Some "max_hrmp_num_per_candidate"%string) 4%N (Some "u32"%string) []); (Field (Some "required_parent"%string) 310%N (Some "HeadData"%string) []); (Field (Some "validation_code_hash"%string) 302%N (Some "ValidationCodeHash"%string) []); (Field (Some "upgrade_restriction"%string) 913%N (Some "Option<UpgradeRestriction>"%string) []); (Field (Some "future_validation_code"%string) 914%N (Some "Option<(N, ValidationCodeHash)>"%string) [])]) []).
Definition md_t909 : ty := 
 (Ty ["polkadot_primitives"%string; "v7"%string; "async_backing"%string; "InboundHrmpLimitations"%string] [("N"%string,(Some 4%N))] (TComposite [(Field (Some "valid_watermarks"%string) 121%N (Some "Vec<N>"%string) [])]) []).
Definition md_t910 : ty := 
 (Ty [] [] (TSequence 911%N) []).
Definition md_t911 : ty := 
 (Ty [] [] (TTuple [163%N; 912%N]) []).
Definition md_t912 : ty := 
 (Ty ["polkadot_primitives"%string; "v7"%string; "async_backing"%string; "OutboundHrmpChannelLimitations"%string] [] (TComposite [(Field (Some "bytes_remaining"%string) 4%N (Some "u32"%string) []); (Field (Some "messages_remaining"%string) 4%N (Some "u32"%string) [])]) []).
Definition md_t913 : ty := 
 (Ty ["Option"%string] [("T"%string,(Some 745%N))] (TVariant [(Variant "None"%string [] 0%N []); (Variant "Some"%string [(Field None 745%N None [])] 1%N [])]) []).
Definition md_t914 : ty := 
 (Ty ["Option"%string] [("T"%string,(Some 915%N))] (TVariant [(Variant "None"%string [] 0%N []); (Variant "Some"%string [(Field None 915%N None [])] 1%N [])]) []).
Definition md_t915 : ty := 
 (Ty [] [] (TTuple [4%N; 302%N]) []).
Definition md_t916 : ty := 
 (Ty [] [] (TSequence 917%N) []).
Definition md_t917 : ty := 
 (Ty ["polkadot_primitives"%string; "v7"%string; "async_backing"%string; "CandidatePendingAvailability"%string] [("H"%string,(Some 13%N)); ("N"%string,(Some 4%N))] (TComposite [(Field (Some "candidate_hash"%string) 315%N (Some "CandidateHash"%string) []); (Field (Some "descriptor"%string) 299%N (Some "CandidateDescriptor<H>"%string) []); (Field (Some "commitments"%string) 303%N (Some "CandidateCommitments"%string) []); (Field (Some "relay_parent_number"%string) 4%N (Some "N"%string) []); (Field (Some "max_pov_size"%string) 4%N (Some "u32"%string) [])]) []).
Definition md_t918 : ty := 
 (Ty ["BTreeMap"%string] [("K"%string,(Some 476%N)); ("V"%string,(Some 737%N))] (TComposite [(Field None 919%N None [])]) []).
Definition md_t919 : ty := 
 (Ty [] [] (TSequence 920%N) []).
Definition md_t920 : ty := 
 (Ty [] [] (TTuple [476%N; 737%N]) []).
Definition md_t921 : ty := 
 (Ty [] [] (TSequence 298%N) []).
Definition md_t922 : ty := 
 (Ty ["Option"%string] [("T"%string,(Some 923%N))] (TVariant [(Variant "None"%string [] 0%N []); (Variant "Some"%string [(Field None 923%N None [])] 1%N [])]) []).
Definition md_t923 : ty := 
 (Ty ["sp_consensus_beefy"%string; "ValidatorSet"%string] [("AuthorityId"%string,(Some 138%N))] (TComposite [(Field (Some "validators"%string) 839%N (Some "Vec<AuthorityId>"%string) []); (Field (Some "id"%string) 12%N (Some "ValidatorSetId"%string) [])]) []).
Definition md_t924 : ty := 
 (Ty ["sp_runtime"%string; "OpaqueValue"%string] [] (TComposite [(Field None 14%N (Some "Vec<u8>"%string) [])]) []).
Definition md_t925 : ty := 
 (Ty ["Option"%string] [("T"%string,(Some 924%N))] (TVariant [(Variant "None"%string [] 0%N []); (Variant "Some"%string [(Field None 924%N None [])] 1%N [])]) []).
Definition md_t926 : ty := 
 (Ty ["Result"%string] [("T"%string,(Some 13%N)); ("E"%string,(Some 927%N))] (TVariant [(Variant "Ok"%string [(Field None 13%N None [])] 0%N []); (Variant "Err"%string [(Field None 927%N None [])] 1%N [])]) []).
Definition md_t927 : ty := 
 (Ty ["sp_mmr_primitives"%string; "Error"%string] [] (TVariant [(Variant "InvalidNumericOp"%string [] 0%N []); (Variant "Push"%string [] 1%N []); (Variant "GetRoot"%string [] 2%N []); (Variant "Commit"%string [] 3%N []); (Variant "GenerateProof"%string [] 4%N []); (Variant "Verify"%string [] 5%N []); (Variant "LeafNotFound"%string [] 6%N []); (Variant "PalletNotIncluded"%string [] 7%N []); (Variant "InvalidLeafIndex"%string [] 8%N []); (Variant "InvalidBestKnownBlock"%string [] 9%N [])]) []).
Definition md_t928 : ty := 
 (Ty ["Result"%string] [("T"%string,(Some 12%N)); ("E"%string,(Some 927%N))] (TVariant [(Variant "Ok"%string [(Field None 12%N None [])] 0%N []); (Variant "Err"%string [(Field None 927%N None [])] 1%N [])]) []).
Definition md_t929 : ty := 
 (Ty ["Result"%string] [("T"%string,(Some 930%N)); ("E"%string,(Some 927%N))] (TVariant [(Variant "Ok"%string [(Field None 930%N None [])] 0%N []); (Variant "Err"%string [(Field None 927%N None [])] 1%N [])]) []).
Definition md_t930 : ty := 
 (Ty [] [] (TTuple [931%N; 933%N]) []).
Definition md_t931 : ty := 
 (Ty [] [] (TSequence 932%N) []).
Definition md_t932 : ty := 
 (Ty ["sp_mmr_primitives"%string; "EncodableOpaqueLeaf"%string] [] (TComposite [(Field None 14%N (Some "Vec<u8>"%string) [])]) []).
Definition md_t933 : ty := 
 (Ty ["sp_mmr_primitives"%string; "LeafProof"%string] [("Hash"%string,(Some 13%N))] (TComposite [(Field (Some "leaf_indices"%string) 680%N (Some "Vec<LeafIndex>"%string) []); (Field (Some "leaf_count"%string) 12%N (Some "NodeIndex"%string) []); (Field (Some "items"%string) 101%N (Some "Vec<Hash>"%string) [])]) []).
Definition md_t934 : ty := 
 (Ty ["Result"%string] [("T"%string,(Some 35%N)); ("E"%string,(Some 927%N))] (TVariant [(Variant "Ok"%string [(Field None 35%N None [])] 0%N []); (Variant "Err"%string [(Field None 927%N None [])] 1%N [])]) []).
Definition md_t935 : ty := 
 (Ty ["sp_consensus_babe"%string; "BabeConfiguration"%string] [] (TComposite [(Field (Some "slot_duration"%string) 12%N (Some "u64"%string) []); (Field (Some "epoch_length"%string) 12%N (Some "u64"%string) []); (Field (Some "c"%string) 109%N (Some "(u64, u64)"%string) []); (Field (Some "authorities"%string) 530%N (Some "Vec<(AuthorityId, BabeAuthorityWeight)>"%string) []); (Field (Some "randomness"%string) 1%N (Some "Randomness"%string) []); (Field (Some "allowed_slots"%string) 110%N (Some "AllowedSlots"%string) [])]) []).
Definition md_t936 : ty := 
 (Ty ["sp_consensus_babe"%string; "Epoch"%string] [] (TComposite [(Field (Some "epoch_index"%string) 12%N (Some "u64"%string) []); (Field (Some "start_slot"%string) 106%N (Some "Slot"%string) []); (Field (Some "duration"%string) 12%N (Some "u64"%string) []); (Field (Some "authorities"%string) 530%N (Some "Vec<(AuthorityId, BabeAuthorityWeight)>"%string) []); (Field (Some "randomness"%string) 1%N (Some "Randomness"%string) []); (Field (Some "config"%string) 539%N (Some "BabeEpochConfiguration"%string) [])]) []).
Definition md_t937 : ty := 
 (Ty ["Option"%string] [("T"%string,(Some 938%N))] (TVariant [(Variant "None"%string [] 0%N []); (Variant "Some"%string [(Field None 938%N None [])] 1%N [])]) []).
Definition md_t938 : ty := 
 (Ty ["sp_consensus_babe"%string; "OpaqueKeyOwnershipProof"%string] [] (TComposite [(Field None 14%N (Some "Vec<u8>"%string) [])]) []).
Definition md_t939 : ty := 
 (Ty ["Option"%string] [("T"%string,(Some 940%N))] (TVariant [(Variant "None"%string [] 0%N []); (Variant "Some"%string [(Field None 940%N None [])] 1%N [])]) []).
Definition md_t940 : ty := 
 (Ty [] [] (TSequence 941%N) []).
Definition md_t941 : ty := 
 (Ty [] [] (TTuple [14%N; 595%N]) []).
Definition md_t942 : ty := 
 (Ty ["pallet_transaction_payment"%string; "types"%string; "RuntimeDispatchInfo"%string] [("Balance"%string,(Some 6%N)); ("Weight"%string,(Some 10%N))] (TComposite [(Field (Some "weight"%string) 10%N (Some "Weight"%string) []); (Field (Some "class"%string) 24%N (Some "DispatchClass"%string) []); (Field (Some "partial_fee"%string) 6%N (Some "Balance"%string) [])]) []).
Definition md_t943 : ty := 
 (Ty ["pallet_transaction_payment"%string; "types"%string; "FeeDetails"%string] [("Balance"%string,(Some 6%N))] (TComposite [(Field (Some "inclusion_fee"%string) 944%N (Some "Option<InclusionFee<Balance>>"%string) []); (Field (Some "tip"%string) 6%N (Some "Balance"%string) [])]) []).
Definition md_t944 : ty := 
 (Ty ["Option"%string] [("T"%string,(Some 945%N))] (TVariant [(Variant "None"%string [] 0%N []); (Variant "Some"%string [(Field None 945%N None [])] 1%N [])]) []).
Definition md_t945 : ty := 
 (Ty ["pallet_transaction_payment"%string; "types"%string; "InclusionFee"%string] [("Balance"%string,(Some 6%N))] (TComposite [(Field (Some "base_fee"%string) 6%N (Some "Balance"%string) []); (Field (Some "len_fee"%string) 6%N (Some "Balance"%string) []); (Field (Some "adjusted_weight_fee"%string) 6%N (Some "Balance"%string) [])]) []).
Definition md_t946 : ty := 
 (Ty ["Result"%string] [("T"%string,(Some 947%N)); ("E"%string,(Some 948%N))] (TVariant [(Variant "Ok"%string [(Field None 947%N None [])] 0%N []); (Variant "Err"%string [(Field None 948%N None [])] 1%N [])]) []).
Definition md_t947 : ty := 
 (Ty [] [] (TSequence 431%N) []).
Definition md_t948 : ty := 
 (Ty ["xcm_runtime_apis"%string; "fees"%string; "Error"%string] [] (TVariant [(Variant "Unimplemented"%string [] 0%N []); (Variant "VersionedConversionFailed"%string [] 1%N []); (Variant "WeightNotComputable"%string [] 2%N []); (Variant "UnhandledXcmVersion"%string [] 3%N []); (Variant "AssetNotFound"%string [] 4%N []); (Variant "Unroutable"%string [] 5%N [])]) []).
Definition md_t949 : ty := 
 (Ty ["Result"%string] [("T"%string,(Some 10%N)); ("E"%string,(Some 948%N))] (TVariant [(Variant "Ok"%string [(Field None 10%N None [])] 0%N []); (Variant "Err"%string [(Field None 948%N None [])] 1%N [])]) []).
Definition md_t950 : ty := 
 (Ty ["Result"%string] [("T"%string,(Some 6%N)); ("E"%string,(Some 948%N))] (TVariant [(Variant "Ok"%string [(Field None 6%N None [])] 0%N []); (Variant "Err"%string [(Field None 948%N None [])] 1%N [])]) []).
Definition md_t951 : ty := 
 (Ty ["Result"%string] [("T"%string,(Some 418%N)); ("E"%string,(Some 948%N))] (TVariant [(Variant "Ok"%string [(Field None 418%N None [])] 0%N []); (Variant "Err"%string [(Field None 948%N None [])] 1%N [])]) []).
Definition md_t952 : ty := 
 (Ty ["Result"%string] [("T"%string,(Some 953%N)); ("E"%string,(Some 959%N))] (TVariant [(Variant "Ok"%string [(Field None 953%N None [])] 0%N []); (Variant "Err"%string [(Field None 959%N None [])] 1%N [])]) []).
Definition md_t953 : ty := 
 (Ty ["xcm_runtime_apis"%string; "dry_run"%string; "CallDryRunEffects"%string] [("Event"%string,(Some 21%N))] (TComposite [(Field (Some "execution_result"%string) 450%N (Some "DispatchResultWithPostInfo"%string) []); (Field (Some "emitted_events"%string) 954%N (Some "Vec<Event>"%string) []); (Field (Some "local_xcm"%string) 955%N (Some "Option<VersionedXcm<()>>"%string) []); (Field (Some "forwarded_xcms"%string) 956%N (Some "Vec<(VersionedLocation, Vec<VersionedXcm<()>>)>"%string) [])]) []).
Definition md_t954 : ty := 
 (Ty [] [] (TSequence 21%N) []).
Definition md_t955 : ty := 
 (Ty ["Option"%string] [("T"%string,(Some 354%N))] (TVariant [(Variant "None"%string [] 0%N []); (Variant "Some"%string [(Field None 354%N None [])] 1%N [])]) []).
Definition md_t956 : ty := 
 (Ty [] [] (TSequence 957%N) []).
Definition md_t957 : ty := 
 (Ty [] [] (TTuple [81%N; 958%N]) []).
Definition md_t958 : ty := 
 (Ty [] [] (TSequence 354%N) []).
Definition md_t959 : ty := 
 (Ty ["xcm_runtime_apis"%string; "dry_run"%string; "Error"%string] [] (TVariant [(Variant "Unimplemented"%string [] 0%N []); (Variant "VersionedConversionFailed"%string [] 1%N [])]) []).
Definition md_t960 : ty := 
 (Ty ["Result"%string] [("T"%string,(Some 961%N)); ("E"%string,(Some 959%N))] (TVariant [(Variant "Ok"%string [(Field None 961%N None [])] 0%N []); (Variant "Err"%string [(Field None 959%N None [])] 1%N [])]) []).
Definition md_t961 : ty := 
 (Ty ["xcm_runtime_apis"%string; "dry_run"%string; "XcmDryRunEffects"%string] [("Event"%string,(Some 21%N))] (TComposite [(Field (Some "execution_result"%string) 493%N (Some "Outcome"%string) []); (Field (Some "emitted_events"%string) 954%N (Some "Vec<Event>"%string) []); (Field (Some "forwarded_xcms"%string) 956%N (Some "Vec<(VersionedLocation, Vec<VersionedXcm<()>>)>"%string) [])]) []).
Definition md_t962 : ty := 
 (Ty ["Result"%string] [("T"%string,(Some 0%N)); ("E"%string,(Some 963%N))] (TVariant [(Variant "Ok"%string [(Field None 0%N None [])] 0%N []); (Variant "Err"%string [(Field None 963%N None [])] 1%N [])]) []).
Definition md_t963 : ty := 
 (Ty ["xcm_runtime_apis"%string; "conversions"%string; "Error"%string] [] (TVariant [(Variant "Unsupported"%string [] 0%N []); (Variant "VersionedConversionFailed"%string [] 1%N [])]) []).
Definition md_t964 : ty := 
 (Ty ["Result"%string] [("T"%string,(Some 35%N)); ("E"%string,(Some 500%N))] (TVariant [(Variant "Ok"%string [(Field None 35%N None [])] 0%N []); (Variant "Err"%string [(Field None 500%N None [])] 1%N [])]) []).
Definition md_t965 : ty := 
 (Ty ["Option"%string] [("T"%string,(Some 500%N))] (TVariant [(Variant "None"%string [] 0%N []); (Variant "Some"%string [(Field None 500%N None [])] 1%N [])]) []).
Definition md_t966 : ty := 
 (Ty [] [] (TSequence 500%N) []).
Definition md_t967 : ty := 
 (Ty ["polkadot_runtime"%string; "RuntimeError"%string] [] (TVariant [(Variant "System"%string [(Field None 512%N (Some "frame_system::Error<Runtime>"%string) [])] 0%N []); (Variant "Scheduler"%string [(Field None 518%N (Some "pallet_scheduler::Error<Runtime>"%string) [])] 1%N []); (Variant "Preimage"%string [(Field None 527%N (Some "pallet_preimage::Error<Runtime>"%string) [])] 10%N []); (Variant "Babe"%string [(Field None 543%N (Some "pallet_babe::Error<Runtime>"%string) [])] 2%N []); (Variant "Indices"%string [(Field None 545%N (Some "pallet_indices::Error<Runtime>"%string) [])] 4%N []); (Variant "Balances"%string [(Field None 564%N (Some "pallet_balances::Error<Runtime>"%string) [])] 5%N []); (Variant "Staking"%string [(Field None 588%N (Some "pallet_staking::Error<Runtime>"%string) [])] 7%N []); (Variant "Session"%string [(Field None 596%N (Some "pallet_session::Error<Runtime>"%string) [])] 9%N []); (Variant "Grandpa"%string [(Field None 600%N (Some "pallet_grandpa::Error<Runtime>"%string) [])] 11%N []); (Variant "Treasury"%string [(Field None 609%N (Some "pallet_treasury::Error<Runtime>"%string) [])] 19%N []); (Variant "ConvictionVoting"%string [(Field None 622%N (Some "pallet_conviction_voting::Error<Runtime>"%string) [])] 20%N []); (Variant "Referenda"%string [(Field None 640%N (Some "pallet_referenda::Error<Runtime>"%string) [])] 21%N []); (Variant "Whitelist"%string [(Field None 641%N (Some "pallet_whitelist::Error<Runtime>"%string) [])] 23%N []); (Variant "Claims"%string [(Field None 642%N (Some "claims::Error<Runtime>"%string) [])] 24%N []); (Variant "Vesting"%string [(Field None 646%N (Some "pallet_vesting::Error<Runtime>"%string) [])] 25%N []); (Variant "Utility"%string [(Field None 647%N (Some "pallet_utility::Error<Runtime>"%string) [])] 26%N []); (Variant "Proxy"%string [(Field None 656%N (Some "pallet_proxy::Error<Runtime>"%string) [])] 29%N []); (Variant "Multisig"%string [(Field None 660%N (Some "pallet_multisig::Error<Runtime>"%string) [])] 30%N []); (Variant "Bounties"%string [(Field None 664%N (Some "pallet_bounties::Error<Runtime>"%string) [])] 34%N []); (Variant "ChildBounties"%string [(Field None 667%N (Some "pallet_child_bounties::Error<Runtime>"%string) [])] 38%N []); (Variant "ElectionProviderMultiPhase"%string [(Field None 677%N (Some "pallet_election_provider_multi_phase::Error<Runtime>"%string) [])] 36%N []); (Variant "VoterList"%string [(Field None 681%N (Some "pallet_bags_list::Error<Runtime, pallet_bags_list::Instance1>"%string) [])] 37%N []); (Variant "NominationPools"%string [(Field None 699%N (Some "pallet_nomination_pools::Error<Runtime>"%string) [])] 39%N []); (Variant "FastUnstake"%string [(Field None 704%N (Some "pallet_fast_unstake::Error<Runtime>"%string) [])] 40%N []); (Variant "Configuration"%string [(Field None 708%N (Some "parachains_configuration::Error<Runtime>"%string) [])] 51%N []); (Variant "ParaInclusion"%string [(Field None 716%N (Some "parachains_inclusion::Error<Runtime>"%string) [])] 53%N []); (Variant "ParaInherent"%string [(Field None 722%N (Some "parachains_paras_inherent::Error<Runtime>"%string) [])] 54%N []); (Variant "Paras"%string [(Field None 747%N (Some "parachains_paras::Error<Runtime>"%string) [])] 56%N []); (Variant "Hrmp"%string [(Field None 759%N (Some "parachains_hrmp::Error<Runtime>"%string) [])] 60%N []); (Variant "ParasDisputes"%string [(Field None 767%N (Some "parachains_disputes::Error<Runtime>"%string) [])] 62%N []); (Variant "ParasSlashing"%string [(Field None 772%N (Some "parachains_slashing::Error<Runtime>"%string) [])] 63%N []); (Variant "OnDemand"%string [(Field None 784%N (Some "parachains_assigner_on_demand::Error<Runtime>"%string) [])] 64%N []); (Variant "CoretimeAssignmentProvider"%string [(Field None 795%N (Some "parachains_assigner_coretime::Error<Runtime>"%string) [])] 65%N []); (Variant "Registrar"%string [(Field None 797%N (Some "paras_registrar::Error<Runtime>"%string) [])] 70%N []); (Variant "Slots"%string [(Field None 799%N (Some "slots::Error<Runtime>"%string) [])] 71%N []); (Variant "Auctions"%string [(Field None 804%N (Some "auctions::Error<Runtime>"%string) [])] 72%N []); (Variant "Crowdloan"%string [(Field None 807%N (Some "crowdloan::Error<Runtime>"%string) [])] 73%N []); (Variant "Coretime"%string [(Field None 808%N (Some "coretime::Error<Runtime>"%string) [])] 74%N []); (Variant "StateTrieMigration"%string [(Field None 491%N (Some "pallet_state_trie_migration::Error<Runtime>"%string) [])] 98%N []); (Variant "XcmPallet"%string [(Field None 829%N (Some "pallet_xcm::Error<Runtime>"%string) [])] 99%N []); (Variant "MessageQueue"%string [(Field None 836%N (Some "pallet_message_queue::Error<Runtime>"%string) [])] 100%N []); (Variant "AssetRate"%string [(Field None 837%N (Some "pallet_asset_rate::Error<Runtime>"%string) [])] 101%N []); (Variant "Beefy"%string [(Field None 840%N (Some "pallet_beefy::Error<Runtime>"%string) [])] 200%N [])]) []).
Definition md_types : list ty := [md_t0; md_t1; md_t2; md_t3; md_t4; md_t5; md_t6; md_t7; md_t8; md_t9; md_t10; md_t11; md_t12; md_t13; md_t14; md_t15; md_t16; md_t17; md_t18; md_t19; md_t20; md_t21; md_t22; md_t23; md_t24; md_t25; md_t26; md_t27; md_t28; md_t29; md_t30; md_t31; md_t32; md_t33; md_t34; md_t35; md_t36; md_t37; md_t38; md_t39; md_t40; md_t41; md_t42; md_t43; md_t44; md_t45; md_t46; md_t47; md_t48; md_t49; md_t50; md_t51; md_t52; md_t53; md_t54; md_t55; md_t56; md_t57; md_t58; md_t59; md_t60; md_t61; md_t62; md_t63; md_t64; md_t65; md_t66; md_t67; md_t68; md_t69; md_t70; md_t71; md_t72; md_t73; md_t74; md_t75; md_t76; md_t77; md_t78; md_t79; md_t80; md_t81; md_t82; md_t83; md_t84; md_t85; md_t86; md_t87; md_t88; md_t89; md_t90; md_t91; md_t92; md_t93; md_t94; md_t95; md_t96; md_t97; md_t98; md_t99; md_t100; md_t101; md_t102; md_t103; md_t104; md_t105; md_t106; md_t107; md_t108; md_t109; md_t110; md_t111; md_t112; md_t113; md_t114; md_t115; md_t116; md_t117; md_t118; md_t119; md_t120; md_t121; md_t122; md_t123; md_t124; md_t125; md_t126; md_t127; md_t128; md_t129; md_t130; md_t131; md_t132; md_t133; md_t134; md_t135; md_t136; md_t137; md_t138; md_t139; md_t140; md_t141; md_t142; md_t143; md_t144; md_t145; md_t146; md_t147; md_t148; md_t149; md_t150; md_t151; md_t152; md_t153; md_t154; md_t155; md_t156; md_t157; md_t158; md_t159; md_t160; md_t161; md_t162; md_t163; md_t164; md_t165; md_t166; md_t167; md_t168; md_t169; md_t170; md_t171; md_t172; md_t173; md_t174; md_t175; md_t176; md_t177; md_t178; md_t179; md_t180; md_t181; md_t182; md_t183; md_t184; md_t185; md_t186; md_t187; md_t188; md_t189; md_t190; md_t191; md_t192; md_t193; md_t194; md_t195; md_t196; md_t197; md_t198; md_t199; md_t200; md_t201; md_t202; md_t203; md_t204; md_t205; md_t206; md_t207; md_t208; md_t209; md_t210; md_t211; md_t212; md_t213; md_t214; md_t215; md_t216; md_t217; md_t218; md_t219; md_t220; md_t221; md_t222; md_t223; md_t224; md_t225; md_t226; md_t227; md_t228; md_t229; md_t230; md_t231; md_t232; md_t233; md_t234; md_t235; md_t236; md_t237; md_t238; md_t239; md_t240; md_t241; md_t242; md_t243; md_t244; md_t245; md_t246; md_t247; md_t248; md_t249; md_t250; md_t251; md_t252; md_t253; md_t254; md_t255; md_t256; md_t257; md_t258; md_t259; md_t260; md_t261; md_t262; md_t263; md_t264; md_t265; md_t266; md_t267; md_t268; md_t269; md_t270; md_t271; md_t272; md_t273; md_t274; md_t275; md_t276; md_t277; md_t278; md_t279; md_t280; md_t281; md_t282; md_t283; md_t284; md_t285; md_t286; md_t287; md_t288; md_t289; md_t290; md_t291; md_t292; md_t293; md_t294; md_t295; md_t296; md_t297; md_t298; md_t299; md_t300; md_t301; md_t302; md_t303; md_t304; md_t305; md_t306; md_t307; md_t308; md_t309; md_t310; md_t311; md_t312; md_t313; md_t314; md_t315; md_t316; md_t317; md_t318; md_t319; md_t320; md_t321; md_t322; md_t323; md_t324; md_t325; md_t326; md_t327; md_t328; md_t329; md_t330; md_t331; md_t332; md_t333; md_t334; md_t335; md_t336; md_t337; md_t338; md_t339; md_t340; md_t341; md_t342; md_t343; md_t344; md_t345; md_t346; md_t347; md_t348; md_t349; md_t350; md_t351; md_t352; md_t353; md_t354; md_t355; md_t356; md_t357; md_t358; md_t359; md_t360; md_t361; md_t362; md_t363; md_t364; md_t365; md_t366; md_t367; md_t368; md_t369; md_t370; md_t371; md_t372; md_t373; md_t374; md_t375; md_t376; md_t377; md_t378; md_t379; md_t380; md_t381; md_t382; md_t383; md_t384; md_t385; md_t386; md_t387; md_t388; md_t389; md_t390; md_t391; md_t392; md_t393; md_t394; md_t395; md_t396; md_t397; md_t398; md_t399; md_t400; md_t401; md_t402; md_t403; md_t404; md_t405; md_t406; md_t407; md_t408; md_t409; md_t410; md_t411; md_t412; md_t413; md_t414; md_t415; md_t416; md_t417; md_t418; md_t419; md_t420; md_t421; md_t422; md_t423; md_t424; md_t425; md_t426; md_t427; md_t428; md_t429; md_t430; md_t431; md_t432; md_t433; md_t434; md_t435; md_t436; md_t437; md_t438; md_t439; md_t440; md_t441; md_t442; md_t443; md_t444; md_t445; md_t446; md_t447; md_t448; md_t449; md_t450; md_t451; md_t452; md_t453; md_t454; md_t455; md_t456; md_t457; md_t458; md_t459; md_t460; md_t461; md_t462; md_t463; md_t464; md_t465; md_t466; md_t467; md_t468; md_t469; md_t470; md_t471; md_t472; md_t473; md_t474; md_t475; md_t476; md_t477; md_t478; md_t479; md_t480; md_t481; md_t482; md_t483; md_t484; md_t485; md_t486; md_t487; md_t488; md_t489; md_t490; md_t491; md_t492; md_t493; md_t494; md_t495; md_t496; md_t497; md_t498; md_t499; md_t500; md_t501; md_t502; md_t503; md_t504; md_t505; md_t506; md_t507; md_t508; md_t509; md_t510; md_t511; md_t512; md_t513; md_t514; md_t515; md_t516; md_t517; md_t518; md_t519; md_t520; md_t521; md_t522; md_t523; md_t524; md_t525; md_t526; md_t527; md_t528; md_t529; md_t530; md_t531; md_t532; md_t533; md_t534; md_t535; md_t536; md_t537; md_t538; md_t539; md_t540; md_t541; md_t542; md_t543; md_t544; md_t545; md_t546; md_t547; md_t548; md_t549; md_t550; md_t551; md_t552; md_t553; md_t554; md_t555; md_t556; md_t557; md_t558; md_t559; md_t560; md_t561; md_t562; md_t563; md_t564; md_t565; md_t566; md_t567; md_t568; md_t569; md_t570; md_t571; md_t572; md_t573; md_t574; md_t575; md_t576; md_t577; md_t578; md_t579; md_t580; md_t581; md_t582; md_t583; md_t584; md_t585; md_t586; md_t587; md_t588; md_t589; md_t590; md_t591; md_t592; md_t593; md_t594; md_t595; md_t596; md_t597; md_t598; md_t599; md_t600; md_t601; md_t602; md_t603; md_t604; md_t605; md_t606; md_t607; md_t608; md_t609; md_t610; md_t611; md_t612; md_t613; md_t614; md_t615; md_t616; md_t617; md_t618; md_t619; md_t620; md_t621; md_t622; md_t623; md_t624; md_t625; md_t626; md_t627; md_t628; md_t629; md_t630; md_t631; md_t632; md_t633; md_t634; md_t635; md_t636; md_t637; md_t638; md_t639; md_t640; md_t641; md_t642; md_t643; md_t644; md_t645; md_t646; md_t647; md_t648; md_t649; md_t650; md_t651; md_t652; md_t653; md_t654; md_t655; md_t656; md_t657; md_t658; md_t659; md_t660; md_t661; md_t662; md_t663; md_t664; md_t665; md_t666; md_t667; md_t668; md_t669; md_t670; md_t671; md_t672; md_t673; md_t674; md_t675; md_t676; md_t677; md_t678; md_t679; md_t680; md_t681; md_t682; md_t683; md_t684; md_t685; md_t686; md_t687; md_t688; md_t689; md_t690; md_t691; md_t692; md_t693; md_t694; md_t695; md_t696; md_t697; md_t698; md_t699; md_t700; md_t701; md_t702; md_t703; md_t704; md_t705; md_t706; md_t707; md_t708; md_t709; md_t710; md_t711; md_t712; md_t713; md_t714; md_t715; md_t716; md_t717; md_t718; md_t719; md_t720; md_t721; md_t722; md_t723; md_t724; md_t725; md_t726; md_t727; md_t728; md_t729; md_t730; md_t731; md_t732; md_t733; md_t734; md_t735; md_t736; md_t737; md_t738; md_t739; md_t740; md_t741; md_t742; md_t743; md_t744; md_t745; md_t746; md_t747; md_t748; md_t749; md_t750; md_t751; md_t752; md_t753; md_t754; md_t755; md_t756; md_t757; md_t758; md_t759; md_t760; md_t761; md_t762; md_t763; md_t764; md_t765; md_t766; md_t767; md_t768; md_t769; md_t770; md_t771; md_t772; md_t773; md_t774; md_t775; md_t776; md_t777; md_t778; md_t779; md_t780; md_t781; md_t782; md_t783; md_t784; md_t785; md_t786; md_t787; md_t788; md_t789; md_t790; md_t791; md_t792; md_t793; md_t794; md_t795; md_t796; md_t797; md_t798; md_t799; md_t800; md_t801; md_t802; md_t803; md_t804; md_t805; md_t806; md_t807; md_t808; md_t809; md_t810; md_t811; md_t812; md_t813; md_t814; md_t815; md_t816; md_t817; md_t818; md_t819; md_t820; md_t821; md_t822; md_t823; md_t824; md_t825; md_t826; md_t827; md_t828; md_t829; md_t830; md_t831; md_t832; md_t833; md_t834; md_t835; md_t836; md_t837; md_t838; md_t839; md_t840; md_t841; md_t842; md_t843; md_t844; md_t845; md_t846; md_t847; md_t848; md_t849; md_t850; md_t851; md_t852; md_t853; md_t854; md_t855; md_t856; md_t857; md_t858; md_t859; md_t860; md_t861; md_t862; md_t863; md_t864; md_t865; md_t866; md_t867; md_t868; md_t869; md_t870; md_t871; md_t872; md_t873; md_t874; md_t875; md_t876; md_t877; md_t878; md_t879; md_t880; md_t881; md_t882; md_t883; md_t884; md_t885; md_t886; md_t887; md_t888; md_t889; md_t890; md_t891; md_t892; md_t893; md_t894; md_t895; md_t896; md_t897; md_t898; md_t899; md_t900; md_t901; md_t902; md_t903; md_t904; md_t905; md_t906; md_t907; md_t908; md_t909; md_t910; md_t911; md_t912; md_t913; md_t914; md_t915; md_t916; md_t917; md_t918; md_t919; md_t920; md_t921; md_t922; md_t923; md_t924; md_t925; md_t926; md_t927; md_t928; md_t929; md_t930; md_t931; md_t932; md_t933; md_t934; md_t935; md_t936; md_t937; md_t938; md_t939; md_t940; md_t941; md_t942; md_t943; md_t944; md_t945; md_t946; md_t947; md_t948; md_t949; md_t950; md_t951; md_t952; md_t953; md_t954; md_t955; md_t956; md_t957; md_t958; md_t959; md_t960; md_t961; md_t962; md_t963; md_t964; md_t965; md_t966; md_t967].
Definition md := metadata_of_v15 (MetadataV15 md_types [(Pallet "System"%string [(Constant "Version"%string [32%N; 112%N; 111%N; 108%N; 107%N; 97%N; 100%N; 111%N; 116%N; 60%N; 112%N; 97%N; 114%N; 105%N; 116%N; 121%N; 45%N; 112%N; 111%N; 108%N; 107%N; 97%N; 100%N; 111%N; 116%N; 0%N; 0%N; 0%N; 0%N; 251%N; 77%N; 15%N; 0%N; 0%N; 0%N; 0%N; 0%N; 92%N; 197%N; 31%N; 241%N; 250%N; 63%N; 93%N; 12%N; 202%N; 1%N; 0%N; 0%N; 0%N; 223%N; 106%N; 203%N; 104%N; 153%N; 7%N; 96%N; 155%N; 5%N; 0%N; 0%N; 0%N; 55%N; 227%N; 151%N; 252%N; 124%N; 145%N; 245%N; 228%N; 2%N; 0%N; 0%N; 0%N; 64%N; 254%N; 58%N; 212%N; 1%N; 248%N; 149%N; 154%N; 6%N; 0%N; 0%N; 0%N; 23%N; 166%N; 188%N; 13%N; 0%N; 98%N; 174%N; 179%N; 1%N; 0%N; 0%N; 0%N; 24%N; 239%N; 88%N; 163%N; 182%N; 123%N; 167%N; 112%N; 1%N; 0%N; 0%N; 0%N; 210%N; 188%N; 152%N; 151%N; 238%N; 208%N; 143%N; 21%N; 3%N; 0%N; 0%N; 0%N; 247%N; 139%N; 39%N; 139%N; 229%N; 63%N; 69%N; 76%N; 2%N; 0%N; 0%N; 0%N; 175%N; 44%N; 2%N; 151%N; 162%N; 62%N; 109%N; 61%N; 11%N; 0%N; 0%N; 0%N; 73%N; 234%N; 175%N; 27%N; 84%N; 138%N; 12%N; 176%N; 3%N; 0%N; 0%N; 0%N; 145%N; 213%N; 223%N; 24%N; 176%N; 210%N; 207%N; 88%N; 2%N; 0%N; 0%N; 0%N; 42%N; 94%N; 146%N; 70%N; 85%N; 57%N; 158%N; 96%N; 1%N; 0%N; 0%N; 0%N; 237%N; 153%N; 197%N; 172%N; 178%N; 94%N; 237%N; 245%N; 3%N; 0%N; 0%N; 0%N; 203%N; 202%N; 37%N; 227%N; 159%N; 20%N; 35%N; 135%N; 2%N; 0%N; 0%N; 0%N; 104%N; 122%N; 212%N; 74%N; 211%N; 127%N; 3%N; 194%N; 1%N; 0%N; 0%N; 0%N; 171%N; 60%N; 5%N; 114%N; 41%N; 31%N; 235%N; 139%N; 1%N; 0%N; 0%N; 0%N; 188%N; 157%N; 137%N; 144%N; 79%N; 91%N; 146%N; 63%N; 1%N; 0%N; 0%N; 0%N; 55%N; 200%N; 187%N; 19%N; 80%N; 169%N; 162%N; 168%N; 4%N; 0%N; 0%N; 0%N; 243%N; 255%N; 20%N; 213%N; 171%N; 82%N; 112%N; 89%N; 3%N; 0%N; 0%N; 0%N; 111%N; 245%N; 46%N; 232%N; 88%N; 230%N; 197%N; 189%N; 1%N; 0%N; 0%N; 0%N; 145%N; 177%N; 200%N; 177%N; 99%N; 40%N; 235%N; 146%N; 1%N; 0%N; 0%N; 0%N; 159%N; 251%N; 80%N; 90%N; 167%N; 56%N; 214%N; 156%N; 1%N; 0%N; 0%N; 0%N; 251%N; 197%N; 119%N; 185%N; 215%N; 71%N; 239%N; 214%N; 1%N; 0%N; 0%N; 0%N; 26%N; 0%N; 0%N; 0%N; 1%N] 508%N)]); (Pallet "Scheduler"%string []); (Pallet "Preimage"%string []); (Pallet "Babe"%string []); (Pallet "Timestamp"%string []); (Pallet "Indices"%string []); (Pallet "Balances"%string []); (Pallet "TransactionPayment"%string []); (Pallet "Authorship"%string []); (Pallet "Staking"%string []); (Pallet "Offences"%string []); (Pallet "Historical"%string []); (Pallet "Session"%string []); (Pallet "Grandpa"%string []); (Pallet "AuthorityDiscovery"%string []); (Pallet "Treasury"%string []); (Pallet "ConvictionVoting"%string []); (Pallet "Referenda"%string []); (Pallet "Origins"%string []); (Pallet "Whitelist"%string []); (Pallet "Parameters"%string []); (Pallet "Claims"%string []); (Pallet "Vesting"%string []); (Pallet "Utility"%string []); (Pallet "Proxy"%string []); (Pallet "Multisig"%string []); (Pallet "Bounties"%string []); (Pallet "ChildBounties"%string []); (Pallet "ElectionProviderMultiPhase"%string []); (Pallet "VoterList"%string []); (Pallet "NominationPools"%string []); (Pallet "FastUnstake"%string []); (Pallet "ParachainsOrigin"%string []); (Pallet "Configuration"%string []); (Pallet "ParasShared"%string []); (Pallet "ParaInclusion"%string []); (Pallet "ParaInherent"%string []); (Pallet "ParaScheduler"%string []); (Pallet "Paras"%string []); (Pallet "Initializer"%string []); (Pallet "Dmp"%string []); (Pallet "Hrmp"%string []); (Pallet "ParaSessionInfo"%string []); (Pallet "ParasDisputes"%string []); (Pallet "ParasSlashing"%string []); (Pallet "OnDemand"%string []); (Pallet "CoretimeAssignmentProvider"%string []); (Pallet "Registrar"%string []); (Pallet "Slots"%string []); (Pallet "Auctions"%string []); (Pallet "Crowdloan"%string []); (Pallet "Coretime"%string []); (Pallet "StateTrieMigration"%string []); (Pallet "XcmPallet"%string []); (Pallet "MessageQueue"%string []); (Pallet "AssetRate"%string []); (Pallet "Beefy"%string []); (Pallet "Mmr"%string []); (Pallet "BeefyMmrLeaf"%string [])] (ExtrinsicParams 113%N 93%N 341%N 842%N) 4%N [(ExtMeta "CheckNonZeroSender"%string 843%N 35%N); (ExtMeta "CheckSpecVersion"%string 844%N 4%N); (ExtMeta "CheckTxVersion"%string 845%N 4%N); (ExtMeta "CheckGenesis"%string 846%N 13%N); (ExtMeta "CheckMortality"%string 847%N 13%N); (ExtMeta "CheckNonce"%string 849%N 35%N); (ExtMeta "CheckWeight"%string 850%N 35%N); (ExtMeta "ChargeTransactionPayment"%string 851%N 35%N); (ExtMeta "PrevalidateAttests"%string 852%N 35%N); (ExtMeta "CheckMetadataHash"%string 853%N 33%N)]).
Example unchecked_extrinsic_2 :
 match decode_as_unchecked_extrinsic (slice_buffer (unhex "3502840094af1b41d3346c8b50f9f2d229422ddbbc53e7a59df3b49abd049ff059122d6e01c240497d62b63d2e6144bd59d43f385f5d377d03c21d0643513054491cf90c67f71c5f32ae4ac37d16f55eb100dae006b774f57283d21bb7afb84c8bbfb5de873500280000000a040036988c476fff14e9885c49f938193f2fc4b54ba9e4cf673ffed3dc4e413aeb3a00"%string)) md 0 tt with
 | (Ok (UxSigned _ signature _ _), _, _) => Some signature
 | _ => None
 end = Some (Ext (DFixed KSigSr25519 (unhex "c240497d62b63d2e6144bd59d43f385f5d377d03c21d0643513054491cf90c67f71c5f32ae4ac37d16f55eb100dae006b774f57283d21bb7afb84c8bbfb5de87"%string)) [(Info ""%string ["sp_runtime"%string; "MultiSignature"%string])]).
Proof. vm_compute. reflexivity. Qed.
