(** GENERATED from /repo/for_tests/polkadot1000001_v15 and /repo/src/tests.rs: the tests of the
    repository on this metadata replayed on the model (tests of the fidelity of the
    model, not proofs of properties). Identicons are not compared. *)
From Verif Require Import Base Compact Types Indicators Decode Sign Meta Balance Cards Unchecked.
From Verif Require Address.
Definition b58 := Address.address.
Definition idn (b : bytes) : bytes := [].
Definition bs := Address.bits_text.
Fixpoint unhex (s : string) : bytes :=
  let v c := let n := N_of_ascii c in if (n <? 58)%N then (n - 48)%N else (n - 87)%N in
  match s with String a (String b r) => (16 * v a + v b)%N :: unhex r | _ => [] end.
Definition md_t0 : ty := (Ty ["sp_core"%string; "crypto"%string; "AccountId32"%string] [] (TComposite [(Field None 1%N (Some "[u8; 32]"%string) [])]) []).
Definition md_t1 : ty := (Ty [] [] (TArray 32%N 2%N) []).
Definition md_t2 : ty := (Ty [] [] (TPrimitive (PrU U8)) []).
Definition md_t3 : ty := (Ty ["frame_system"%string; "AccountInfo"%string] [("Nonce"%string,(Some 4%N)); ("AccountData"%string,(Some 5%N))] (TComposite [(Field (Some "nonce"%string) 4%N (Some "Nonce"%string) []); (Field (Some "consumers"%string) 4%N (Some "RefCount"%string) []); (Field (Some "providers"%string) 4%N (Some "RefCount"%string) []); (Field (Some "sufficients"%string) 4%N (Some "RefCount"%string) []); (Field (Some "data"%string) 5%N (Some "AccountData"%string) [])]) []).
Definition md_t4 : ty := (Ty [] [] (TPrimitive (PrU U32)) []).
Definition md_t5 : ty := (Ty ["pallet_balances"%string; "types"%string; "AccountData"%string] [("Balance"%string,(Some 6%N))] (TComposite [(Field (Some "free"%string) 6%N (Some "Balance"%string) []); (Field (Some "reserved"%string) 6%N (Some "Balance"%string) []); (Field (Some "frozen"%string) 6%N (Some "Balance"%string) []); (Field (Some "flags"%string) 7%N (Some "ExtraFlags"%string) [])]) []).
Definition md_t6 : ty := (Ty [] [] (TPrimitive (PrU U128)) []).
Definition md_t7 : ty := (Ty ["pallet_balances"%string; "types"%string; "ExtraFlags"%string] [] (TComposite [(Field None 6%N (Some "u128"%string) [])]) []).
Definition md_t8 : ty := (Ty ["frame_support"%string; "dispatch"%string; "PerDispatchClass"%string] [("T"%string,(Some 9%N))] (TComposite [(Field (Some "normal"%string) 9%N (Some "T"%string) []); (Field (Some "operational"%string) 9%N (Some "T"%string) []); (Field (Some "mandatory"%string) 9%N (Some "T"%string) [])]) []).
Definition md_t9 : ty := (Ty ["sp_weights"%string; "weight_v2"%string; "Weight"%string] [] (TComposite [(Field (Some "ref_time"%string) 10%N (Some "u64"%string) []); (Field (Some "proof_size"%string) 10%N (Some "u64"%string) [])]) []).
Definition md_t10 : ty := (Ty [] [] (TCompact 11%N) []).
Definition md_t11 : ty := (Ty [] [] (TPrimitive (PrU U64)) []).
Definition md_t12 : ty := (Ty ["primitive_types"%string; "H256"%string] [] (TComposite [(Field None 1%N (Some "[u8; 32]"%string) [])]) []).
Definition md_t13 : ty := (Ty [] [] (TSequence 2%N) []).
Definition md_t14 : ty := (Ty ["sp_runtime"%string; "generic"%string; "digest"%string; "Digest"%string] [] (TComposite [(Field (Some "logs"%string) 15%N (Some "Vec<DigestItem>"%string) [])]) []).
Definition md_t15 : ty := (Ty [] [] (TSequence 16%N) []).
Definition md_t16 : ty := (Ty ["sp_runtime"%string; "generic"%string; "digest"%string; "DigestItem"%string] [] (TVariant [(Variant "PreRuntime"%string [(Field None 17%N (Some "ConsensusEngineId"%string) []); (Field None 13%N (Some "Vec<u8>"%string) [])] 6%N []); (Variant "Consensus"%string [(Field None 17%N (Some "ConsensusEngineId"%string) []); (Field None 13%N (Some "Vec<u8>"%string) [])] 4%N []); (Variant "Seal"%string [(Field None 17%N (Some "ConsensusEngineId"%string) []); (Field None 13%N (Some "Vec<u8>"%string) [])] 5%N []); (Variant "Other"%string [(Field None 13%N (Some "Vec<u8>"%string) [])] 0%N []); (Variant "RuntimeEnvironmentUpdated"%string [] 8%N [])]) []).
Definition md_t17 : ty := (Ty [] [] (TArray 4%N 2%N) []).
Definition md_t18 : ty := (Ty [] [] (TSequence 19%N) []).
Definition md_t19 : ty := (Ty ["frame_system"%string; "EventRecord"%string] [("E"%string,(Some 20%N)); ("T"%string,(Some 12%N))] (TComposite [(Field (Some "phase"%string) 454%N (Some "Phase"%string) []); (Field (Some "event"%string) 20%N (Some "E"%string) []); (Field (Some "topics"%string) 455%N (Some "Vec<T>"%string) [])]) []).
Definition md_t20 : ty := (Ty ["polkadot_runtime"%string; "RuntimeEvent"%string] [] (TVariant [(Variant "System"%string [(Field None 21%N (Some "frame_system::Event<Runtime>"%string) [])] 0%N []); (Variant "Scheduler"%string [(Field None 30%N (Some "pallet_scheduler::Event<Runtime>"%string) [])] 1%N []); (Variant "Preimage"%string [(Field None 35%N (Some "pallet_preimage::Event<Runtime>"%string) [])] 10%N []); (Variant "Indices"%string [(Field None 36%N (Some "pallet_indices::Event<Runtime>"%string) [])] 4%N []); (Variant "Balances"%string [(Field None 37%N (Some "pallet_balances::Event<Runtime>"%string) [])] 5%N []); (Variant "TransactionPayment"%string [(Field None 39%N (Some "pallet_transaction_payment::Event<Runtime>"%string) [])] 32%N []); (Variant "Staking"%string [(Field None 40%N (Some "pallet_staking::Event<Runtime>"%string) [])] 7%N []); (Variant "Offences"%string [(Field None 46%N (Some "pallet_offences::Event"%string) [])] 8%N []); (Variant "Session"%string [(Field None 48%N (Some "pallet_session::Event"%string) [])] 9%N []); (Variant "Grandpa"%string [(Field None 49%N (Some "pallet_grandpa::Event"%string) [])] 11%N []); (Variant "ImOnline"%string [(Field None 54%N (Some "pallet_im_online::Event<Runtime>"%string) [])] 12%N []); (Variant "Treasury"%string [(Field None 63%N (Some "pallet_treasury::Event<Runtime>"%string) [])] 19%N []); (Variant "ConvictionVoting"%string [(Field None 64%N (Some "pallet_conviction_voting::Event<Runtime>"%string) [])] 20%N []); (Variant "Referenda"%string [(Field None 65%N (Some "pallet_referenda::Event<Runtime>"%string) [])] 21%N []); (Variant "Whitelist"%string [(Field None 417%N (Some "pallet_whitelist::Event<Runtime>"%string) [])] 23%N []); (Variant "Claims"%string [(Field None 422%N (Some "claims::Event<Runtime>"%string) [])] 24%N []); (Variant "Vesting"%string [(Field None 423%N (Some "pallet_vesting::Event<Runtime>"%string) [])] 25%N []); (Variant "Utility"%string [(Field None 424%N (Some "pallet_utility::Event"%string) [])] 26%N []); (Variant "Identity"%string [(Field None 425%N (Some "pallet_identity::Event<Runtime>"%string) [])] 28%N []); (Variant "Proxy"%string [(Field None 426%N (Some "pallet_proxy::Event<Runtime>"%string) [])] 29%N []); (Variant "Multisig"%string [(Field None 427%N (Some "pallet_multisig::Event<Runtime>"%string) [])] 30%N []); (Variant "Bounties"%string [(Field None 428%N (Some "pallet_bounties::Event<Runtime>"%string) [])] 34%N []); (Variant "ChildBounties"%string [(Field None 429%N (Some "pallet_child_bounties::Event<Runtime>"%string) [])] 38%N []); (Variant "ElectionProviderMultiPhase"%string [(Field None 430%N (Some "pallet_election_provider_multi_phase::Event<Runtime>"%string) [])] 36%N []); (Variant "VoterList"%string [(Field None 434%N (Some "pallet_bags_list::Event<Runtime, pallet_bags_list::Instance1>"%string) [])] 37%N []); (Variant "NominationPools"%string [(Field None 435%N (Some "pallet_nomination_pools::Event<Runtime>"%string) [])] 39%N []); (Variant "FastUnstake"%string [(Field None 436%N (Some "pallet_fast_unstake::Event<Runtime>"%string) [])] 40%N []); (Variant "ParaInclusion"%string [(Field None 437%N (Some "parachains_inclusion::Event<Runtime>"%string) [])] 53%N []); (Variant "Paras"%string [(Field None 441%N (Some "parachains_paras::Event"%string) [])] 56%N []); (Variant "Hrmp"%string [(Field None 442%N (Some "parachains_hrmp::Event<Runtime>"%string) [])] 60%N []); (Variant "ParasDisputes"%string [(Field None 443%N (Some "parachains_disputes::Event<Runtime>"%string) [])] 62%N []); (Variant "Registrar"%string [(Field None 446%N (Some "paras_registrar::Event<Runtime>"%string) [])] 70%N []); (Variant "Slots"%string [(Field None 447%N (Some "slots::Event<Runtime>"%string) [])] 71%N []); (Variant "Auctions"%string [(Field None 448%N (Some "auctions::Event<Runtime>"%string) [])] 72%N []); (Variant "Crowdloan"%string [(Field None 449%N (Some "crowdloan::Event<Runtime>"%string) [])] 73%N []); (Variant "XcmPallet"%string [(Field None 450%N (Some "pallet_xcm::Event<Runtime>"%string) [])] 99%N []); (Variant "MessageQueue"%string [(Field None 452%N (Some "pallet_message_queue::Event<Runtime>"%string) [])] 100%N [])]) []).
Definition md_t21 : ty := (Ty ["frame_system"%string; "pallet"%string; "Event"%string] [("T"%string,None)] (TVariant [(Variant "ExtrinsicSuccess"%string [(Field (Some "dispatch_info"%string) 22%N (Some "DispatchInfo"%string) [])] 0%N ["An extrinsic completed successfully."%string]); (Variant "ExtrinsicFailed"%string [(Field (Some "dispatch_error"%string) 25%N (Some "DispatchError"%string) []); (Field (Some "dispatch_info"%string) 22%N (Some "DispatchInfo"%string) [])] 1%N ["An extrinsic failed."%string]); (Variant "CodeUpdated"%string [] 2%N ["`:code` was updated."%string]); (Variant "NewAccount"%string [(Field (Some "account"%string) 0%N (Some "T::AccountId"%string) [])] 3%N ["A new account was created."%string]); (Variant "KilledAccount"%string [(Field (Some "account"%string) 0%N (Some "T::AccountId"%string) [])] 4%N ["An account was reaped."%string]); (Variant "Remarked"%string [(Field (Some "sender"%string) 0%N (Some "T::AccountId"%string) []); (Field (Some "hash"%string) 12%N (Some "T::Hash"%string) [])] 5%N ["On on-chain remark happened."%string])]) ["Event for the System pallet."%string]).
Definition md_t22 : ty := (Ty ["frame_support"%string; "dispatch"%string; "DispatchInfo"%string] [] (TComposite [(Field (Some "weight"%string) 9%N (Some "Weight"%string) []); (Field (Some "class"%string) 23%N (Some "DispatchClass"%string) []); (Field (Some "pays_fee"%string) 24%N (Some "Pays"%string) [])]) []).
Definition md_t23 : ty := (Ty ["frame_support"%string; "dispatch"%string; "DispatchClass"%string] [] (TVariant [(Variant "Normal"%string [] 0%N []); (Variant "Operational"%string [] 1%N []); (Variant "Mandatory"%string [] 2%N [])]) []).
Definition md_t24 : ty := (Ty ["frame_support"%string; "dispatch"%string; "Pays"%string] [] (TVariant [(Variant "Yes"%string [] 0%N []); (Variant "No"%string [] 1%N [])]) []).
Definition md_t25 : ty := (Ty ["sp_runtime"%string; "DispatchError"%string] [] (TVariant [(Variant "Other"%string [] 0%N []); (Variant "CannotLookup"%string [] 1%N []); (Variant "BadOrigin"%string [] 2%N []); (Variant "Module"%string [(Field None 26%N (Some "ModuleError"%string) [])] 3%N []); (Variant "ConsumerRemaining"%string [] 4%N []); (Variant "NoProviders"%string [] 5%N []); (Variant "TooManyConsumers"%string [] 6%N []); (Variant "Token"%string [(Field None 27%N (Some "TokenError"%string) [])] 7%N []); (Variant "Arithmetic"%string [(Field None 28%N (Some "ArithmeticError"%string) [])] 8%N []); (Variant "Transactional"%string [(Field None 29%N (Some "TransactionalError"%string) [])] 9%N []); (Variant "Exhausted"%string [] 10%N []); (Variant "Corruption"%string [] 11%N []); (Variant "Unavailable"%string [] 12%N []); (Variant "RootNotAllowed"%string [] 13%N [])]) []).
Definition md_t26 : ty := (Ty ["sp_runtime"%string; "ModuleError"%string] [] (TComposite [(Field (Some "index"%string) 2%N (Some "u8"%string) []); (Field (Some "error"%string) 17%N (Some "[u8; MAX_MODULE_ERROR_ENCODED_SIZE]"%string) [])]) []).
Definition md_t27 : ty := (Ty ["sp_runtime"%string; "TokenError"%string] [] (TVariant [(Variant "FundsUnavailable"%string [] 0%N []); (Variant "OnlyProvider"%string [] 1%N []); (Variant "BelowMinimum"%string [] 2%N []); (Variant "CannotCreate"%string [] 3%N []); (Variant "UnknownAsset"%string [] 4%N []); (Variant "Frozen"%string [] 5%N []); (Variant "Unsupported"%string [] 6%N []); (Variant "CannotCreateHold"%string [] 7%N []); (Variant "NotExpendable"%string [] 8%N []); (Variant "Blocked"%string [] 9%N [])]) []).
Definition md_t28 : ty := (Ty ["sp_arithmetic"%string; "ArithmeticError"%string] [] (TVariant [(Variant "Underflow"%string [] 0%N []); (Variant "Overflow"%string [] 1%N []); (Variant "DivisionByZero"%string [] 2%N [])]) []).
Definition md_t29 : ty := (Ty ["sp_runtime"%string; "TransactionalError"%string] [] (TVariant [(Variant "LimitReached"%string [] 0%N []); (Variant "NoLayer"%string [] 1%N [])]) []).
Definition md_t30 : ty := (Ty ["pallet_scheduler"%string; "pallet"%string; "Event"%string] [("T"%string,None)] (TVariant [(Variant "Scheduled"%string [(Field (Some "when"%string) 4%N (Some "BlockNumberFor<T>"%string) []); (Field (Some "index"%string) 4%N (Some "u32"%string) [])] 0%N ["Scheduled some task."%string]); (Variant "Canceled"%string [(Field (Some "when"%string) 4%N (Some "BlockNumberFor<T>"%string) []); (Field (Some "index"%string) 4%N (Some "u32"%string) [])] 1%N ["Canceled some task."%string]); (Variant "Dispatched"%string [(Field (Some "task"%string) 31%N (Some "TaskAddress<BlockNumberFor<T>>"%string) []); (Field (Some "id"%string) 32%N (Some "Option<TaskName>"%string) []); (Field (Some "result"%string) 33%N (Some "DispatchResult"%string) [])] 2%N ["Dispatched some task."%string]); (Variant "CallUnavailable"%string [(Field (Some "task"%string) 31%N (Some "TaskAddress<BlockNumberFor<T>>"%string) []); (Field (Some "id"%string) 32%N (Some "Option<TaskName>"%string) [])] 3%N ["The call for the provided hash was not found so the task has been aborted."%string]); (Variant "PeriodicFailed"%string [(Field (Some "task"%string) 31%N (Some "TaskAddress<BlockNumberFor<T>>"%string) []); (Field (Some "id"%string) 32%N (Some "Option<TaskName>"%string) [])] 4%N ["The given task was unable to be renewed since the agenda is full at that block."%string]); (Variant "PermanentlyOverweight"%string [(Field (Some "task"%string) 31%N (Some "TaskAddress<BlockNumberFor<T>>"%string) []); (Field (Some "id"%string) 32%N (Some "Option<TaskName>"%string) [])] 5%N ["The given task can never be executed since it is overweight."%string])]) ["Events type."%string]).
Definition md_t31 : ty := (Ty [] [] (TTuple [4%N; 4%N]) []).
Definition md_t32 : ty := (Ty ["Option"%string] [("T"%string,(Some 1%N))] (TVariant [(Variant "None"%string [] 0%N []); (Variant "Some"%string [(Field None 1%N None [])] 1%N [])]) []).
Definition md_t33 : ty := (Ty ["Result"%string] [("T"%string,(Some 34%N)); ("E"%string,(Some 25%N))] (TVariant [(Variant "Ok"%string [(Field None 34%N None [])] 0%N []); (Variant "Err"%string [(Field None 25%N None [])] 1%N [])]) []).
Definition md_t34 : ty := (Ty [] [] (TTuple []) []).
Definition md_t35 : ty := (Ty ["pallet_preimage"%string; "pallet"%string; "Event"%string] [("T"%string,None)] (TVariant [(Variant "Noted"%string [(Field (Some "hash"%string) 12%N (Some "T::Hash"%string) [])] 0%N ["A preimage has been noted."%string]); (Variant "Requested"%string [(Field (Some "hash"%string) 12%N (Some "T::Hash"%string) [])] 1%N ["A preimage has been requested."%string]); (Variant "Cleared"%string [(Field (Some "hash"%string) 12%N (Some "T::Hash"%string) [])] 2%N ["A preimage has ben cleared."%string])]) ["The `Event` enum of this pallet"%string]).
Definition md_t36 : ty := (Ty ["pallet_indices"%string; "pallet"%string; "Event"%string] [("T"%string,None)] (TVariant [(Variant "IndexAssigned"%string [(Field (Some "who"%string) 0%N (Some "T::AccountId"%string) []); (Field (Some "index"%string) 4%N (Some "T::AccountIndex"%string) [])] 0%N ["A account index was assigned."%string]); (Variant "IndexFreed"%string [(Field (Some "index"%string) 4%N (Some "T::AccountIndex"%string) [])] 1%N ["A account index has been freed up (unassigned)."%string]); (Variant "IndexFrozen"%string [(Field (Some "index"%string) 4%N (Some "T::AccountIndex"%string) []); (Field (Some "who"%string) 0%N (Some "T::AccountId"%string) [])] 2%N ["A account index has been frozen to its current account ID."%string])]) ["The `Event` enum of this pallet"%string]).
Definition md_t37 : ty := (Ty ["pallet_balances"%string; "pallet"%string; "Event"%string] [("T"%string,None); ("I"%string,None)] (TVariant [(Variant "Endowed"%string [(Field (Some "account"%string) 0%N (Some "T::AccountId"%string) []); (Field (Some "free_balance"%string) 6%N (Some "T::Balance"%string) [])] 0%N ["An account was created with some free balance."%string]); (Variant "DustLost"%string [(Field (Some "account"%string) 0%N (Some "T::AccountId"%string) []); (Field (Some "amount"%string) 6%N (Some "T::Balance"%string) [])] 1%N ["An account was removed whose balance was non-zero but below ExistentialDeposit,"%string; "resulting in an outright loss."%string]); (Variant "Transfer"%string [(Field (Some "from"%string) 0%N (Some "T::AccountId"%string) []); (Field (Some "to"%string) 0%N (Some "T::AccountId"%string) []); (Field (Some "amount"%string) 6%N (Some "T::Balance"%string) [])] 2%N ["Transfer succeeded."%string]); (Variant "BalanceSet"%string [(Field (Some "who"%string) 0%N (Some "T::AccountId"%string) []); (Field (Some "free"%string) 6%N (Some "T::Balance"%string) [])] 3%N ["A balance was set by root."%string]); (Variant "Reserved"%string [(Field (Some "who"%string) 0%N (Some "T::AccountId"%string) []); (Field (Some "amount"%string) 6%N (Some "T::Balance"%string) [])] 4%N ["Some balance was reserved (moved from free to reserved)."%string]); (Variant "Unreserved"%string [(Field (Some "who"%string) 0%N (Some "T::AccountId"%string) []); (Field (Some "amount"%string) 6%N (Some "T::Balance"%string) [])] 5%N ["Some balance was unreserved (moved from reserved to free)."%string]); (Variant "ReserveRepatriated"%string [(Field (Some "from"%string) 0%N (Some "T::AccountId"%string) []); (Field (Some "to"%string) 0%N (Some "T::AccountId"%string) []); (Field (Some "amount"%string) 6%N (Some "T::Balance"%string) []); (Field (Some "destination_status"%string) 38%N (Some "Status"%string) [])] 6%N ["Some balance was moved from the reserve of the first account to the second account."%string; "Final argument indicates the destination balance type."%string]); (Variant "Deposit"%string [(Field (Some "who"%string) 0%N (Some "T::AccountId"%string) []); (Field (Some "amount"%string) 6%N (Some "T::Balance"%string) [])] 7%N ["Some amount was deposited (e.g. for transaction fees)."%string]); (Variant "Withdraw"%string [(Field (Some "who"%string) 0%N (Some "T::AccountId"%string) []); (Field (Some "amount"%string) 6%N (Some "T::Balance"%string) [])] 8%N ["Some amount was withdrawn from the account (e.g. for transaction fees)."%string]); (Variant "Slashed"%string [(Field (Some "who"%string) 0%N (Some "T::AccountId"%string) []); (Field (Some "amount"%string) 6%N (Some "T::Balance"%string) [])] 9%N ["Some amount was removed from the account (e.g. for misbehavior)."%string]); (Variant "Minted"%string [(Field (Some "who"%string) 0%N (Some "T::AccountId"%string) []); (Field (Some "amount"%string) 6%N (Some "T::Balance"%string) [])] 10%N ["Some amount was minted into an account."%string]); (Variant "Burned"%string [(Field (Some "who"%string) 0%N (Some "T::AccountId"%string) []); (Field (Some "amount"%string) 6%N (Some "T::Balance"%string) [])] 11%N ["Some amount was burned from an account."%string]); (Variant "Suspended"%string [(Field (Some "who"%string) 0%N (Some "T::AccountId"%string) []); (Field (Some "amount"%string) 6%N (Some "T::Balance"%string) [])] 12%N ["Some amount was suspended from an account (it can be restored later)."%string]); (Variant "Restored"%string [(Field (Some "who"%string) 0%N (Some "T::AccountId"%string) []); (Field (Some "amount"%string) 6%N (Some "T::Balance"%string) [])] 13%N ["Some amount was restored into an account."%string]); (Variant "Upgraded"%string [(Field (Some "who"%string) 0%N (Some "T::AccountId"%string) [])] 14%N ["An account was upgraded."%string]); (Variant "Issued"%string [(Field (Some "amount"%string) 6%N (Some "T::Balance"%string) [])] 15%N ["Total issuance was increased by `amount`, creating a credit to be balanced."%string]); (Variant "Rescinded"%string [(Field (Some "amount"%string) 6%N (Some "T::Balance"%string) [])] 16%N ["Total issuance was decreased by `amount`, creating a debt to be balanced."%string]); (Variant "Locked"%string [(Field (Some "who"%string) 0%N (Some "T::AccountId"%string) []); (Field (Some "amount"%string) 6%N (Some "T::Balance"%string) [])] 17%N ["Some balance was locked."%string]); (Variant "Unlocked"%string [(Field (Some "who"%string) 0%N (Some "T::AccountId"%string) []); (Field (Some "amount"%string) 6%N (Some "T::Balance"%string) [])] 18%N ["Some balance was unlocked."%string]); (Variant "Frozen"%string [(Field (Some "who"%string) 0%N (Some "T::AccountId"%string) []); (Field (Some "amount"%string) 6%N (Some "T::Balance"%string) [])] 19%N ["Some balance was frozen."%string]); (Variant "Thawed"%string [(Field (Some "who"%string) 0%N (Some "T::AccountId"%string) []); (Field (Some "amount"%string) 6%N (Some "T::Balance"%string) [])] 20%N ["Some balance was thawed."%string])]) ["The `Event` enum of this pallet"%string]).
Definition md_t38 : ty := (Ty ["frame_support"%string; "traits"%string; "tokens"%string; "misc"%string; "BalanceStatus"%string] [] (TVariant [(Variant "Free"%string [] 0%N []); (Variant "Reserved"%string [] 1%N [])]) []).
Definition md_t39 : ty := (Ty ["pallet_transaction_payment"%string; "pallet"%string; "Event"%string] [("T"%string,None)] (TVariant [(Variant "TransactionFeePaid"%string [(Field (Some "who"%string) 0%N (Some "T::AccountId"%string) []); (Field (Some "actual_fee"%string) 6%N (Some "BalanceOf<T>"%string) []); (Field (Some "tip"%string) 6%N (Some "BalanceOf<T>"%string) [])] 0%N ["A transaction fee `actual_fee`, of which `tip` was added to the minimum inclusion fee,"%string; "has been paid by `who`."%string])]) ["The `Event` enum of this pallet"%string]).
Definition md_t40 : ty := (Ty ["pallet_staking"%string; "pallet"%string; "pallet"%string; "Event"%string] [("T"%string,None)] (TVariant [(Variant "EraPaid"%string [(Field (Some "era_index"%string) 4%N (Some "EraIndex"%string) []); (Field (Some "validator_payout"%string) 6%N (Some "BalanceOf<T>"%string) []); (Field (Some "remainder"%string) 6%N (Some "BalanceOf<T>"%string) [])] 0%N ["The era payout has been set; the first balance is the validator-payout; the second is"%string; "the remainder from the maximum amount of reward."%string]); (Variant "Rewarded"%string [(Field (Some "stash"%string) 0%N (Some "T::AccountId"%string) []); (Field (Some "amount"%string) 6%N (Some "BalanceOf<T>"%string) [])] 1%N ["The nominator has been rewarded by this amount."%string]); (Variant "Slashed"%string [(Field (Some "staker"%string) 0%N (Some "T::AccountId"%string) []); (Field (Some "amount"%string) 6%N (Some "BalanceOf<T>"%string) [])] 2%N ["A staker (validator or nominator) has been slashed by the given amount."%string]); (Variant "SlashReported"%string [(Field (Some "validator"%string) 0%N (Some "T::AccountId"%string) []); (Field (Some "fraction"%string) 41%N (Some "Perbill"%string) []); (Field (Some "slash_era"%string) 4%N (Some "EraIndex"%string) [])] 3%N ["A slash for the given validator, for the given percentage of their stake, at the given"%string; "era as been reported."%string]); (Variant "OldSlashingReportDiscarded"%string [(Field (Some "session_index"%string) 4%N (Some "SessionIndex"%string) [])] 4%N ["An old slashing report from a prior era was discarded because it could"%string; "not be processed."%string]); (Variant "StakersElected"%string [] 5%N ["A new set of stakers was elected."%string]); (Variant "Bonded"%string [(Field (Some "stash"%string) 0%N (Some "T::AccountId"%string) []); (Field (Some "amount"%string) 6%N (Some "BalanceOf<T>"%string) [])] 6%N ["An account has bonded this amount. \[stash, amount\]"%string; ""%string; "NOTE: This event is only emitted when funds are bonded via a dispatchable. Notably,"%string; "it will not be emitted for staking rewards when they are added to stake."%string]); (Variant "Unbonded"%string [(Field (Some "stash"%string) 0%N (Some "T::AccountId"%string) []); (Field (Some "amount"%string) 6%N (Some "BalanceOf<T>"%string) [])] 7%N ["An account has unbonded this amount."%string]); (Variant "Withdrawn"%string [(Field (Some "stash"%string) 0%N (Some "T::AccountId"%string) []); (Field (Some "amount"%string) 6%N (Some "BalanceOf<T>"%string) [])] 8%N ["An account has called `withdraw_unbonded` and removed unbonding chunks worth `Balance`"%string; "from the unlocking queue."%string]); (Variant "Kicked"%string [(Field (Some "nominator"%string) 0%N (Some "T::AccountId"%string) []); (Field (Some "stash"%string) 0%N (Some "T::AccountId"%string) [])] 9%N ["A nominator has been kicked from a validator."%string]); (Variant "StakingElectionFailed"%string [] 10%N ["The election failed. No new era is planned."%string]); (Variant "Chilled"%string [(Field (Some "stash"%string) 0%N (Some "T::AccountId"%string) [])] 11%N ["An account has stopped participating as either a validator or nominator."%string]); (Variant "PayoutStarted"%string [(Field (Some "era_index"%string) 4%N (Some "EraIndex"%string) []); (Field (Some "validator_stash"%string) 0%N (Some "T::AccountId"%string) [])] 12%N ["The stakers' rewards are getting paid."%string]); (Variant "ValidatorPrefsSet"%string [(Field (Some "stash"%string) 0%N (Some "T::AccountId"%string) []); (Field (Some "prefs"%string) 42%N (Some "ValidatorPrefs"%string) [])] 13%N ["A validator has set their preferences."%string]); (Variant "SnapshotVotersSizeExceeded"%string [(Field (Some "size"%string) 4%N (Some "u32"%string) [])] 14%N ["Voters size limit reached."%string]); (Variant "SnapshotTargetsSizeExceeded"%string [(Field (Some "size"%string) 4%N (Some "u32"%string) [])] 15%N ["Targets size limit reached."%string]); (Variant "ForceEra"%string [(Field (Some "mode"%string) 45%N (Some "Forcing"%string) [])] 16%N ["A new force era mode was set."%string])]) ["The `Event` enum of this pallet"%string]).
Definition md_t41 : ty := (Ty ["sp_arithmetic"%string; "per_things"%string; "Perbill"%string] [] (TComposite [(Field None 4%N (Some "u32"%string) [])]) []).
Definition md_t42 : ty := (Ty ["pallet_staking"%string; "ValidatorPrefs"%string] [] (TComposite [(Field (Some "commission"%string) 43%N (Some "Perbill"%string) []); (Field (Some "blocked"%string) 44%N (Some "bool"%string) [])]) []).
Definition md_t43 : ty := (Ty [] [] (TCompact 41%N) []).
Definition md_t44 : ty := (Ty [] [] (TPrimitive PrBool) []).
Definition md_t45 : ty := (Ty ["pallet_staking"%string; "Forcing"%string] [] (TVariant [(Variant "NotForcing"%string [] 0%N []); (Variant "ForceNew"%string [] 1%N []); (Variant "ForceNone"%string [] 2%N []); (Variant "ForceAlways"%string [] 3%N [])]) []).
Definition md_t46 : ty := (Ty ["pallet_offences"%string; "pallet"%string; "Event"%string] [] (TVariant [(Variant "Offence"%string [(Field (Some "kind"%string) 47%N (Some "Kind"%string) []); (Field (Some "timeslot"%string) 13%N (Some "OpaqueTimeSlot"%string) [])] 0%N ["There is an offence reported of the given `kind` happened at the `session_index` and"%string; "(kind-specific) time slot. This event is not deposited for duplicate slashes."%string; "\[kind, timeslot\]."%string])]) ["Events type."%string]).
Definition md_t47 : ty := (Ty [] [] (TArray 16%N 2%N) []).
Definition md_t48 : ty := (Ty ["pallet_session"%string; "pallet"%string; "Event"%string] [] (TVariant [(Variant "NewSession"%string [(Field (Some "session_index"%string) 4%N (Some "SessionIndex"%string) [])] 0%N ["New session has happened. Note that the argument is the session index, not the"%string; "block number as the type might suggest."%string])]) ["The `Event` enum of this pallet"%string]).
Definition md_t49 : ty := (Ty ["pallet_grandpa"%string; "pallet"%string; "Event"%string] [] (TVariant [(Variant "NewAuthorities"%string [(Field (Some "authority_set"%string) 50%N (Some "AuthorityList"%string) [])] 0%N ["New authority set has been applied."%string]); (Variant "Paused"%string [] 1%N ["Current authority set has been paused."%string]); (Variant "Resumed"%string [] 2%N ["Current authority set has been resumed."%string])]) ["The `Event` enum of this pallet"%string]).
Definition md_t50 : ty := (Ty [] [] (TSequence 51%N) []).
Definition md_t51 : ty := (Ty [] [] (TTuple [52%N; 11%N]) []).
Definition md_t52 : ty := (Ty ["sp_consensus_grandpa"%string; "app"%string; "Public"%string] [] (TComposite [(Field None 53%N (Some "ed25519::Public"%string) [])]) []).
Definition md_t53 : ty := (Ty ["sp_core"%string; "ed25519"%string; "Public"%string] [] (TComposite [(Field None 1%N (Some "[u8; 32]"%string) [])]) []).
Definition md_t54 : ty := (Ty ["pallet_im_online"%string; "pallet"%string; "Event"%string] [("T"%string,None)] (TVariant [(Variant "HeartbeatReceived"%string [(Field (Some "authority_id"%string) 55%N (Some "T::AuthorityId"%string) [])] 0%N ["A new heartbeat was received from `AuthorityId`."%string]); (Variant "AllGood"%string [] 1%N ["At the end of the session, no offence was committed."%string]); (Variant "SomeOffline"%string [(Field (Some "offline"%string) 57%N (Some "Vec<IdentificationTuple<T>>"%string) [])] 2%N ["At the end of the session, at least one validator was found to be offline."%string])]) ["The `Event` enum of this pallet"%string]).
Definition md_t55 : ty := (Ty ["pallet_im_online"%string; "sr25519"%string; "app_sr25519"%string; "Public"%string] [] (TComposite [(Field None 56%N (Some "sr25519::Public"%string) [])]) []).
Definition md_t56 : ty := (Ty ["sp_core"%string; "sr25519"%string; "Public"%string] [] (TComposite [(Field None 1%N (Some "[u8; 32]"%string) [])]) []).
Definition md_t57 : ty := (Ty [] [] (TSequence 58%N) []).
Definition md_t58 : ty := (Ty [] [] (TTuple [0%N; 59%N]) []).
Definition md_t59 : ty := (Ty ["pallet_staking"%string; "Exposure"%string] [("AccountId"%string,(Some 0%N)); ("Balance"%string,(Some 6%N))] (TComposite [(Field (Some "total"%string) 60%N (Some "Balance"%string) []); (Field (Some "own"%string) 60%N (Some "Balance"%string) []); (Field (Some "others"%string) 61%N (Some "Vec<IndividualExposure<AccountId, Balance>>"%string) [])]) []).
Definition md_t60 : ty := (Ty [] [] (TCompact 6%N) []).
Definition md_t61 : ty := (Ty [] [] (TSequence 62%N) []).
Definition md_t62 : ty := (Ty ["pallet_staking"%string; "IndividualExposure"%string] [("AccountId"%string,(Some 0%N)); ("Balance"%string,(Some 6%N))] (TComposite [(Field (Some "who"%string) 0%N (Some "AccountId"%string) []); (Field (Some "value"%string) 60%N (Some "Balance"%string) [])]) []).
Definition md_t63 : ty := (Ty ["pallet_treasury"%string; "pallet"%string; "Event"%string] [("T"%string,None); ("I"%string,None)] (TVariant [(Variant "Proposed"%string [(Field (Some "proposal_index"%string) 4%N (Some "ProposalIndex"%string) [])] 0%N ["New proposal."%string]); (Variant "Spending"%string [(Field (Some "budget_remaining"%string) 6%N (Some "BalanceOf<T, I>"%string) [])] 1%N ["We have ended a spend period and will now allocate funds."%string]); (Variant "Awarded"%string [(Field (Some "proposal_index"%string) 4%N (Some "ProposalIndex"%string) []); (Field (Some "award"%string) 6%N (Some "BalanceOf<T, I>"%string) []); (Field (Some "account"%string) 0%N (Some "T::AccountId"%string) [])] 2%N ["Some funds have been allocated."%string]); (Variant "Rejected"%string [(Field (Some "proposal_index"%string) 4%N (Some "ProposalIndex"%string) []); (Field (Some "slashed"%string) 6%N (Some "BalanceOf<T, I>"%string) [])] 3%N ["A proposal was rejected; funds were slashed."%string]); (Variant "Burnt"%string [(Field (Some "burnt_funds"%string) 6%N (Some "BalanceOf<T, I>"%string) [])] 4%N ["Some of our funds have been burnt."%string]); (Variant "Rollover"%string [(Field (Some "rollover_balance"%string) 6%N (Some "BalanceOf<T, I>"%string) [])] 5%N ["Spending has finished; this is the amount that rolls over until next spend."%string]); (Variant "Deposit"%string [(Field (Some "value"%string) 6%N (Some "BalanceOf<T, I>"%string) [])] 6%N ["Some funds have been deposited."%string]); (Variant "SpendApproved"%string [(Field (Some "proposal_index"%string) 4%N (Some "ProposalIndex"%string) []); (Field (Some "amount"%string) 6%N (Some "BalanceOf<T, I>"%string) []); (Field (Some "beneficiary"%string) 0%N (Some "T::AccountId"%string) [])] 7%N ["A new spend proposal has been approved."%string]); (Variant "UpdatedInactive"%string [(Field (Some "reactivated"%string) 6%N (Some "BalanceOf<T, I>"%string) []); (Field (Some "deactivated"%string) 6%N (Some "BalanceOf<T, I>"%string) [])] 8%N ["The inactive funds of the pallet have been updated."%string])]) ["The `Event` enum of this pallet"%string]).
Definition md_t64 : ty := (Ty ["pallet_conviction_voting"%string; "pallet"%string; "Event"%string] [("T"%string,None); ("I"%string,None)] (TVariant [(Variant "Delegated"%string [(Field None 0%N (Some "T::AccountId"%string) []); (Field None 0%N (Some "T::AccountId"%string) [])] 0%N ["An account has delegated their vote to another account. \[who, target\]"%string]); (Variant "Undelegated"%string [(Field None 0%N (Some "T::AccountId"%string) [])] 1%N ["An \[account\] has cancelled a previous delegation operation."%string])]) ["The `Event` enum of this pallet"%string]).
Definition md_t65 : ty := (Ty ["pallet_referenda"%string; "pallet"%string; "Event"%string] [("T"%string,None); ("I"%string,None)] (TVariant [(Variant "Submitted"%string [(Field (Some "index"%string) 4%N (Some "ReferendumIndex"%string) ["Index of the referendum."%string]); (Field (Some "track"%string) 66%N (Some "TrackIdOf<T, I>"%string) ["The track (and by extension proposal dispatch origin) of this referendum."%string]); (Field (Some "proposal"%string) 67%N (Some "BoundedCallOf<T, I>"%string) ["The proposal for the referendum."%string])] 0%N ["A referendum has been submitted."%string]); (Variant "DecisionDepositPlaced"%string [(Field (Some "index"%string) 4%N (Some "ReferendumIndex"%string) ["Index of the referendum."%string]); (Field (Some "who"%string) 0%N (Some "T::AccountId"%string) ["The account who placed the deposit."%string]); (Field (Some "amount"%string) 6%N (Some "BalanceOf<T, I>"%string) ["The amount placed by the account."%string])] 1%N ["The decision deposit has been placed."%string]); (Variant "DecisionDepositRefunded"%string [(Field (Some "index"%string) 4%N (Some "ReferendumIndex"%string) ["Index of the referendum."%string]); (Field (Some "who"%string) 0%N (Some "T::AccountId"%string) ["The account who placed the deposit."%string]); (Field (Some "amount"%string) 6%N (Some "BalanceOf<T, I>"%string) ["The amount placed by the account."%string])] 2%N ["The decision deposit has been refunded."%string]); (Variant "DepositSlashed"%string [(Field (Some "who"%string) 0%N (Some "T::AccountId"%string) ["The account who placed the deposit."%string]); (Field (Some "amount"%string) 6%N (Some "BalanceOf<T, I>"%string) ["The amount placed by the account."%string])] 3%N ["A deposit has been slashaed."%string]); (Variant "DecisionStarted"%string [(Field (Some "index"%string) 4%N (Some "ReferendumIndex"%string) ["Index of the referendum."%string]); (Field (Some "track"%string) 66%N (Some "TrackIdOf<T, I>"%string) ["The track (and by extension proposal dispatch origin) of this referendum."%string]); (Field (Some "proposal"%string) 67%N (Some "BoundedCallOf<T, I>"%string) ["The proposal for the referendum."%string]); (Field (Some "tally"%string) 416%N (Some "T::Tally"%string) ["The current tally of votes in this referendum."%string])] 4%N ["A referendum has moved into the deciding phase."%string]); (Variant "ConfirmStarted"%string [(Field (Some "index"%string) 4%N (Some "ReferendumIndex"%string) ["Index of the referendum."%string])] 5%N []); (Variant "ConfirmAborted"%string [(Field (Some "index"%string) 4%N (Some "ReferendumIndex"%string) ["Index of the referendum."%string])] 6%N []); (Variant "Confirmed"%string [(Field (Some "index"%string) 4%N (Some "ReferendumIndex"%string) ["Index of the referendum."%string]); (Field (Some "tally"%string) 416%N (Some "T::Tally"%string) ["The final tally of votes in this referendum."%string])] 7%N ["A referendum has ended its confirmation phase and is ready for approval."%string]); (Variant "Approved"%string [(Field (Some "index"%string) 4%N (Some "ReferendumIndex"%string) ["Index of the referendum."%string])] 8%N ["A referendum has been approved and its proposal has been scheduled."%string]); (Variant "Rejected"%string [(Field (Some "index"%string) 4%N (Some "ReferendumIndex"%string) ["Index of the referendum."%string]); (Field (Some "tally"%string) 416%N (Some "T::Tally"%string) ["The final tally of votes in this referendum."%string])] 9%N ["A proposal has been rejected by referendum."%string]); (Variant "TimedOut"%string [(Field (Some "index"%string) 4%N (Some "ReferendumIndex"%string) ["Index of the referendum."%string]); (Field (Some "tally"%string) 416%N (Some "T::Tally"%string) ["The final tally of votes in this referendum."%string])] 10%N ["A referendum has been timed out without being decided."%string]); (Variant "Cancelled"%string [(Field (Some "index"%string) 4%N (Some "ReferendumIndex"%string) ["Index of the referendum."%string]); (Field (Some "tally"%string) 416%N (Some "T::Tally"%string) ["The final tally of votes in this referendum."%string])] 11%N ["A referendum has been cancelled."%string]); (Variant "Killed"%string [(Field (Some "index"%string) 4%N (Some "ReferendumIndex"%string) ["Index of the referendum."%string]); (Field (Some "tally"%string) 416%N (Some "T::Tally"%string) ["The final tally of votes in this referendum."%string])] 12%N ["A referendum has been killed."%string]); (Variant "SubmissionDepositRefunded"%string [(Field (Some "index"%string) 4%N (Some "ReferendumIndex"%string) ["Index of the referendum."%string]); (Field (Some "who"%string) 0%N (Some "T::AccountId"%string) ["The account who placed the deposit."%string]); (Field (Some "amount"%string) 6%N (Some "BalanceOf<T, I>"%string) ["The amount placed by the account."%string])] 13%N ["The submission deposit has been refunded."%string]); (Variant "MetadataSet"%string [(Field (Some "index"%string) 4%N (Some "ReferendumIndex"%string) ["Index of the referendum."%string]); (Field (Some "hash"%string) 12%N (Some "PreimageHash"%string) ["Preimage hash."%string])] 14%N ["Metadata for a referendum has been set."%string]); (Variant "MetadataCleared"%string [(Field (Some "index"%string) 4%N (Some "ReferendumIndex"%string) ["Index of the referendum."%string]); (Field (Some "hash"%string) 12%N (Some "PreimageHash"%string) ["Preimage hash."%string])] 15%N ["Metadata for a referendum has been cleared."%string])]) ["The `Event` enum of this pallet"%string]).
Definition md_t66 : ty := (Ty [] [] (TPrimitive (PrU U16)) []).
Definition md_t67 : ty := (Ty ["frame_support"%string; "traits"%string; "preimages"%string; "Bounded"%string] [("T"%string,(Some 68%N))] (TVariant [(Variant "Legacy"%string [(Field (Some "hash"%string) 12%N (Some "Hash"%string) [])] 0%N []); (Variant "Inline"%string [(Field None 415%N (Some "BoundedInline"%string) [])] 1%N []); (Variant "Lookup"%string [(Field (Some "hash"%string) 12%N (Some "Hash"%string) []); (Field (Some "len"%string) 4%N (Some "u32"%string) [])] 2%N [])]) []).
Definition md_t68 : ty := (Ty ["polkadot_runtime"%string; "RuntimeCall"%string] [] (TVariant [(Variant "System"%string [(Field None 69%N (Some "self::sp_api_hidden_includes_construct_runtime::hidden_include::dispatch
::CallableCallFor<System, Runtime>"%string) [])] 0%N []); (Variant "Scheduler"%string [(Field None 73%N (Some "self::sp_api_hidden_includes_construct_runtime::hidden_include::dispatch
::CallableCallFor<Scheduler, Runtime>"%string) [])] 1%N []); (Variant "Preimage"%string [(Field None 75%N (Some "self::sp_api_hidden_includes_construct_runtime::hidden_include::dispatch
::CallableCallFor<Preimage, Runtime>"%string) [])] 10%N []); (Variant "Babe"%string [(Field None 76%N (Some "self::sp_api_hidden_includes_construct_runtime::hidden_include::dispatch
::CallableCallFor<Babe, Runtime>"%string) [])] 2%N []); (Variant "Timestamp"%string [(Field None 86%N (Some "self::sp_api_hidden_includes_construct_runtime::hidden_include::dispatch
::CallableCallFor<Timestamp, Runtime>"%string) [])] 3%N []); (Variant "Indices"%string [(Field None 87%N (Some "self::sp_api_hidden_includes_construct_runtime::hidden_include::dispatch
::CallableCallFor<Indices, Runtime>"%string) [])] 4%N []); (Variant "Balances"%string [(Field None 91%N (Some "self::sp_api_hidden_includes_construct_runtime::hidden_include::dispatch
::CallableCallFor<Balances, Runtime>"%string) [])] 5%N []); (Variant "Staking"%string [(Field None 93%N (Some "self::sp_api_hidden_includes_construct_runtime::hidden_include::dispatch
::CallableCallFor<Staking, Runtime>"%string) [])] 7%N []); (Variant "Session"%string [(Field None 102%N (Some "self::sp_api_hidden_includes_construct_runtime::hidden_include::dispatch
::CallableCallFor<Session, Runtime>"%string) [])] 9%N []); (Variant "Grandpa"%string [(Field None 107%N (Some "self::sp_api_hidden_includes_construct_runtime::hidden_include::dispatch
::CallableCallFor<Grandpa, Runtime>"%string) [])] 11%N []); (Variant "ImOnline"%string [(Field None 119%N (Some "self::sp_api_hidden_includes_construct_runtime::hidden_include::dispatch
::CallableCallFor<ImOnline, Runtime>"%string) [])] 12%N []); (Variant "Treasury"%string [(Field None 123%N (Some "self::sp_api_hidden_includes_construct_runtime::hidden_include::dispatch
::CallableCallFor<Treasury, Runtime>"%string) [])] 19%N []); (Variant "ConvictionVoting"%string [(Field None 124%N (Some "self::sp_api_hidden_includes_construct_runtime::hidden_include::dispatch
::CallableCallFor<ConvictionVoting, Runtime>"%string) [])] 20%N []); (Variant "Referenda"%string [(Field None 129%N (Some "self::sp_api_hidden_includes_construct_runtime::hidden_include::dispatch
::CallableCallFor<Referenda, Runtime>"%string) [])] 21%N []); (Variant "Whitelist"%string [(Field None 146%N (Some "self::sp_api_hidden_includes_construct_runtime::hidden_include::dispatch
::CallableCallFor<Whitelist, Runtime>"%string) [])] 23%N []); (Variant "Claims"%string [(Field None 147%N (Some "self::sp_api_hidden_includes_construct_runtime::hidden_include::dispatch
::CallableCallFor<Claims, Runtime>"%string) [])] 24%N []); (Variant "Vesting"%string [(Field None 156%N (Some "self::sp_api_hidden_includes_construct_runtime::hidden_include::dispatch
::CallableCallFor<Vesting, Runtime>"%string) [])] 25%N []); (Variant "Utility"%string [(Field None 158%N (Some "self::sp_api_hidden_includes_construct_runtime::hidden_include::dispatch
::CallableCallFor<Utility, Runtime>"%string) [])] 26%N []); (Variant "Identity"%string [(Field None 160%N (Some "self::sp_api_hidden_includes_construct_runtime::hidden_include::dispatch
::CallableCallFor<Identity, Runtime>"%string) [])] 28%N []); (Variant "Proxy"%string [(Field None 201%N (Some "self::sp_api_hidden_includes_construct_runtime::hidden_include::dispatch
::CallableCallFor<Proxy, Runtime>"%string) [])] 29%N []); (Variant "Multisig"%string [(Field None 204%N (Some "self::sp_api_hidden_includes_construct_runtime::hidden_include::dispatch
::CallableCallFor<Multisig, Runtime>"%string) [])] 30%N []); (Variant "Bounties"%string [(Field None 207%N (Some "self::sp_api_hidden_includes_construct_runtime::hidden_include::dispatch
::CallableCallFor<Bounties, Runtime>"%string) [])] 34%N []); (Variant "ChildBounties"%string [(Field None 208%N (Some "self::sp_api_hidden_includes_construct_runtime::hidden_include::dispatch
::CallableCallFor<ChildBounties, Runtime>"%string) [])] 38%N []); (Variant "ElectionProviderMultiPhase"%string [(Field None 209%N (Some "self::sp_api_hidden_includes_construct_runtime::hidden_include::dispatch
::CallableCallFor<ElectionProviderMultiPhase, Runtime>"%string) [])] 36%N []); (Variant "VoterList"%string [(Field None 271%N (Some "self::sp_api_hidden_includes_construct_runtime::hidden_include::dispatch
::CallableCallFor<VoterList, Runtime>"%string) [])] 37%N []); (Variant "NominationPools"%string [(Field None 272%N (Some "self::sp_api_hidden_includes_construct_runtime::hidden_include::dispatch
::CallableCallFor<NominationPools, Runtime>"%string) [])] 39%N []); (Variant "FastUnstake"%string [(Field None 283%N (Some "self::sp_api_hidden_includes_construct_runtime::hidden_include::dispatch
::CallableCallFor<FastUnstake, Runtime>"%string) [])] 40%N []); (Variant "Configuration"%string [(Field None 284%N (Some "self::sp_api_hidden_includes_construct_runtime::hidden_include::dispatch
::CallableCallFor<Configuration, Runtime>"%string) [])] 51%N []); (Variant "ParasShared"%string [(Field None 291%N (Some "self::sp_api_hidden_includes_construct_runtime::hidden_include::dispatch
::CallableCallFor<ParasShared, Runtime>"%string) [])] 52%N []); (Variant "ParaInclusion"%string [(Field None 292%N (Some "self::sp_api_hidden_includes_construct_runtime::hidden_include::dispatch
::CallableCallFor<ParaInclusion, Runtime>"%string) [])] 53%N []); (Variant "ParaInherent"%string [(Field None 293%N (Some "self::sp_api_hidden_includes_construct_runtime::hidden_include::dispatch
::CallableCallFor<ParaInherent, Runtime>"%string) [])] 54%N []); (Variant "Paras"%string [(Field None 327%N (Some "self::sp_api_hidden_includes_construct_runtime::hidden_include::dispatch
::CallableCallFor<Paras, Runtime>"%string) [])] 56%N []); (Variant "Initializer"%string [(Field None 329%N (Some "self::sp_api_hidden_includes_construct_runtime::hidden_include::dispatch
::CallableCallFor<Initializer, Runtime>"%string) [])] 57%N []); (Variant "Hrmp"%string [(Field None 330%N (Some "self::sp_api_hidden_includes_construct_runtime::hidden_include::dispatch
::CallableCallFor<Hrmp, Runtime>"%string) [])] 60%N []); (Variant "ParasDisputes"%string [(Field None 332%N (Some "self::sp_api_hidden_includes_construct_runtime::hidden_include::dispatch
::CallableCallFor<ParasDisputes, Runtime>"%string) [])] 62%N []); (Variant "ParasSlashing"%string [(Field None 333%N (Some "self::sp_api_hidden_includes_construct_runtime::hidden_include::dispatch
::CallableCallFor<ParasSlashing, Runtime>"%string) [])] 63%N []); (Variant "Registrar"%string [(Field None 337%N (Some "self::sp_api_hidden_includes_construct_runtime::hidden_include::dispatch
::CallableCallFor<Registrar, Runtime>"%string) [])] 70%N []); (Variant "Slots"%string [(Field None 338%N (Some "self::sp_api_hidden_includes_construct_runtime::hidden_include::dispatch
::CallableCallFor<Slots, Runtime>"%string) [])] 71%N []); (Variant "Auctions"%string [(Field None 339%N (Some "self::sp_api_hidden_includes_construct_runtime::hidden_include::dispatch
::CallableCallFor<Auctions, Runtime>"%string) [])] 72%N []); (Variant "Crowdloan"%string [(Field None 341%N (Some "self::sp_api_hidden_includes_construct_runtime::hidden_include::dispatch
::CallableCallFor<Crowdloan, Runtime>"%string) [])] 73%N []); (Variant "XcmPallet"%string [(Field None 349%N (Some "self::sp_api_hidden_includes_construct_runtime::hidden_include::dispatch
::CallableCallFor<XcmPallet, Runtime>"%string) [])] 99%N []); (Variant "MessageQueue"%string [(Field None 412%N (Some "self::sp_api_hidden_includes_construct_runtime::hidden_include::dispatch
::CallableCallFor<MessageQueue, Runtime>"%string) [])] 100%N [])]) []).
Definition md_t69 : ty := (Ty ["frame_system"%string; "pallet"%string; "Call"%string] [("T"%string,None)] (TVariant [(Variant "remark"%string [(Field (Some "remark"%string) 13%N (Some "Vec<u8>"%string) [])] 0%N ["See [`Pallet::remark`]."%string]); (Variant "set_heap_pages"%string [(Field (Some "pages"%string) 11%N (Some "u64"%string) [])] 1%N ["See [`Pallet::set_heap_pages`]."%string]); (Variant "set_code"%string [(Field (Some "code"%string) 13%N (Some "Vec<u8>"%string) [])] 2%N ["See [`Pallet::set_code`]."%string]); (Variant "set_code_without_checks"%string [(Field (Some "code"%string) 13%N (Some "Vec<u8>"%string) [])] 3%N ["See [`Pallet::set_code_without_checks`]."%string]); (Variant "set_storage"%string [(Field (Some "items"%string) 70%N (Some "Vec<KeyValue>"%string) [])] 4%N ["See [`Pallet::set_storage`]."%string]); (Variant "kill_storage"%string [(Field (Some "keys"%string) 72%N (Some "Vec<Key>"%string) [])] 5%N ["See [`Pallet::kill_storage`]."%string]); (Variant "kill_prefix"%string [(Field (Some "prefix"%string) 13%N (Some "Key"%string) []); (Field (Some "subkeys"%string) 4%N (Some "u32"%string) [])] 6%N ["See [`Pallet::kill_prefix`]."%string]); (Variant "remark_with_event"%string [(Field (Some "remark"%string) 13%N (Some "Vec<u8>"%string) [])] 7%N ["See [`Pallet::remark_with_event`]."%string])]) ["Contains a variant per dispatchable extrinsic that this pallet has."%string]).
Definition md_t70 : ty := (Ty [] [] (TSequence 71%N) []).
Definition md_t71 : ty := (Ty [] [] (TTuple [13%N; 13%N]) []).
Definition md_t72 : ty := (Ty [] [] (TSequence 13%N) []).
Definition md_t73 : ty := (Ty ["pallet_scheduler"%string; "pallet"%string; "Call"%string] [("T"%string,None)] (TVariant [(Variant "schedule"%string [(Field (Some "when"%string) 4%N (Some "BlockNumberFor<T>"%string) []); (Field (Some "maybe_periodic"%string) 74%N (Some "Option<schedule::Period<BlockNumberFor<T>>>"%string) []); (Field (Some "priority"%string) 2%N (Some "schedule::Priority"%string) []); (Field (Some "call"%string) 68%N (Some "Box<<T as Config>::RuntimeCall>"%string) [])] 0%N ["See [`Pallet::schedule`]."%string]); (Variant "cancel"%string [(Field (Some "when"%string) 4%N (Some "BlockNumberFor<T>"%string) []); (Field (Some "index"%string) 4%N (Some "u32"%string) [])] 1%N ["See [`Pallet::cancel`]."%string]); (Variant "schedule_named"%string [(Field (Some "id"%string) 1%N (Some "TaskName"%string) []); (Field (Some "when"%string) 4%N (Some "BlockNumberFor<T>"%string) []); (Field (Some "maybe_periodic"%string) 74%N (Some "Option<schedule::Period<BlockNumberFor<T>>>"%string) []); (Field (Some "priority"%string) 2%N (Some "schedule::Priority"%string) []); (Field (Some "call"%string) 68%N (Some "Box<<T as Config>::RuntimeCall>"%string) [])] 2%N ["See [`Pallet::schedule_named`]."%string]); (Variant "cancel_named"%string [(Field (Some "id"%string) 1%N (Some "TaskName"%string) [])] 3%N ["See [`Pallet::cancel_named`]."%string]); (Variant "schedule_after"%string [(Field (Some "after"%string) 4%N (Some "BlockNumberFor<T>"%string) []); (Field (Some "maybe_periodic"%string) 74%N (Some "Option<schedule::Period<BlockNumberFor<T>>>"%string) []); (Field (Some "priority"%string) 2%N (Some "schedule::Priority"%string) []); (Field (Some "call"%string) 68%N (Some "Box<<T as Config>::RuntimeCall>"%string) [])] 4%N ["See [`Pallet::schedule_after`]."%string]); (Variant "schedule_named_after"%string [(Field (Some "id"%string) 1%N (Some "TaskName"%string) []); (Field (Some "after"%string) 4%N (Some "BlockNumberFor<T>"%string) []); (Field (Some "maybe_periodic"%string) 74%N (Some "Option<schedule::Period<BlockNumberFor<T>>>"%string) []); (Field (Some "priority"%string) 2%N (Some "schedule::Priority"%string) []); (Field (Some "call"%string) 68%N (Some "Box<<T as Config>::RuntimeCall>"%string) [])] 5%N ["See [`Pallet::schedule_named_after`]."%string])]) ["Contains a variant per dispatchable extrinsic that this pallet has."%string]).
Definition md_t74 : ty := (Ty ["Option"%string] [("T"%string,(Some 31%N))] (TVariant [(Variant "None"%string [] 0%N []); (Variant "Some"%string [(Field None 31%N None [])] 1%N [])]) []).
Definition md_t75 : ty := (Ty ["pallet_preimage"%string; "pallet"%string; "Call"%string] [("T"%string,None)] (TVariant [(Variant "note_preimage"%string [(Field (Some "bytes"%string) 13%N (Some "Vec<u8>"%string) [])] 0%N ["See [`Pallet::note_preimage`]."%string]); (Variant "unnote_preimage"%string [(Field (Some "hash"%string) 12%N (Some "T::Hash"%string) [])] 1%N ["See [`Pallet::unnote_preimage`]."%string]); (Variant "request_preimage"%string [(Field (Some "hash"%string) 12%N (Some "T::Hash"%string) [])] 2%N ["See [`Pallet::request_preimage`]."%string]); (Variant "unrequest_preimage"%string [(Field (Some "hash"%string) 12%N (Some "T::Hash"%string) [])] 3%N ["See [`Pallet::unrequest_preimage`]."%string])]) ["Contains a variant per dispatchable extrinsic that this pallet has."%string]).
Definition md_t76 : ty := (Ty ["pallet_babe"%string; "pallet"%string; "Call"%string] [("T"%string,None)] (TVariant [(Variant "report_equivocation"%string [(Field (Some "equivocation_proof"%string) 77%N (Some "Box<EquivocationProof<HeaderFor<T>>>"%string) []); (Field (Some "key_owner_proof"%string) 82%N (Some "T::KeyOwnerProof"%string) [])] 0%N ["See [`Pallet::report_equivocation`]."%string]); (Variant "report_equivocation_unsigned"%string [(Field (Some "equivocation_proof"%string) 77%N (Some "Box<EquivocationProof<HeaderFor<T>>>"%string) []); (Field (Some "key_owner_proof"%string) 82%N (Some "T::KeyOwnerProof"%string) [])] 1%N ["See [`Pallet::report_equivocation_unsigned`]."%string]); (Variant "plan_config_change"%string [(Field (Some "config"%string) 83%N (Some "NextConfigDescriptor"%string) [])] 2%N ["See [`Pallet::plan_config_change`]."%string])]) ["Contains a variant per dispatchable extrinsic that this pallet has."%string]).
Definition md_t77 : ty := (Ty ["sp_consensus_slots"%string; "EquivocationProof"%string] [("Header"%string,(Some 78%N)); ("Id"%string,(Some 80%N))] (TComposite [(Field (Some "offender"%string) 80%N (Some "Id"%string) []); (Field (Some "slot"%string) 81%N (Some "Slot"%string) []); (Field (Some "first_header"%string) 78%N (Some "Header"%string) []); (Field (Some "second_header"%string) 78%N (Some "Header"%string) [])]) []).
Definition md_t78 : ty := (Ty ["sp_runtime"%string; "generic"%string; "header"%string; "Header"%string] [("Number"%string,(Some 4%N)); ("Hash"%string,None)] (TComposite [(Field (Some "parent_hash"%string) 12%N (Some "Hash::Output"%string) []); (Field (Some "number"%string) 79%N (Some "Number"%string) []); (Field (Some "state_root"%string) 12%N (Some "Hash::Output"%string) []); (Field (Some "extrinsics_root"%string) 12%N (Some "Hash::Output"%string) []); (Field (Some "digest"%string) 14%N (Some "Digest"%string) [])]) []).
Definition md_t79 : ty := (Ty [] [] (TCompact 4%N) []).
Definition md_t80 : ty := (Ty ["sp_consensus_babe"%string; "app"%string; "Public"%string] [] (TComposite [(Field None 56%N (Some "sr25519::Public"%string) [])]) []).
Definition md_t81 : ty := (Ty ["sp_consensus_slots"%string; "Slot"%string] [] (TComposite [(Field None 11%N (Some "u64"%string) [])]) []).
Definition md_t82 : ty := (Ty ["sp_session"%string; "MembershipProof"%string] [] (TComposite [(Field (Some "session"%string) 4%N (Some "SessionIndex"%string) []); (Field (Some "trie_nodes"%string) 72%N (Some "Vec<Vec<u8>>"%string) []); (Field (Some "validator_count"%string) 4%N (Some "ValidatorCount"%string) [])]) []).
Definition md_t83 : ty := (Ty ["sp_consensus_babe"%string; "digests"%string; "NextConfigDescriptor"%string] [] (TVariant [(Variant "V1"%string [(Field (Some "c"%string) 84%N (Some "(u64, u64)"%string) []); (Field (Some "allowed_slots"%string) 85%N (Some "AllowedSlots"%string) [])] 1%N [])]) []).
Definition md_t84 : ty := (Ty [] [] (TTuple [11%N; 11%N]) []).
Definition md_t85 : ty := (Ty ["sp_consensus_babe"%string; "AllowedSlots"%string] [] (TVariant [(Variant "PrimarySlots"%string [] 0%N []); (Variant "PrimaryAndSecondaryPlainSlots"%string [] 1%N []); (Variant "PrimaryAndSecondaryVRFSlots"%string [] 2%N [])]) []).
Definition md_t86 : ty := (Ty ["pallet_timestamp"%string; "pallet"%string; "Call"%string] [("T"%string,None)] (TVariant [(Variant "set"%string [(Field (Some "now"%string) 10%N (Some "T::Moment"%string) [])] 0%N ["See [`Pallet::set`]."%string])]) ["Contains a variant per dispatchable extrinsic that this pallet has."%string]).
Definition md_t87 : ty := (Ty ["pallet_indices"%string; "pallet"%string; "Call"%string] [("T"%string,None)] (TVariant [(Variant "claim"%string [(Field (Some "index"%string) 4%N (Some "T::AccountIndex"%string) [])] 0%N ["See [`Pallet::claim`]."%string]); (Variant "transfer"%string [(Field (Some "new"%string) 88%N (Some "AccountIdLookupOf<T>"%string) []); (Field (Some "index"%string) 4%N (Some "T::AccountIndex"%string) [])] 1%N ["See [`Pallet::transfer`]."%string]); (Variant "free"%string [(Field (Some "index"%string) 4%N (Some "T::AccountIndex"%string) [])] 2%N ["See [`Pallet::free`]."%string]); (Variant "force_transfer"%string [(Field (Some "new"%string) 88%N (Some "AccountIdLookupOf<T>"%string) []); (Field (Some "index"%string) 4%N (Some "T::AccountIndex"%string) []); (Field (Some "freeze"%string) 44%N (Some "bool"%string) [])] 3%N ["See [`Pallet::force_transfer`]."%string]); (Variant "freeze"%string [(Field (Some "index"%string) 4%N (Some "T::AccountIndex"%string) [])] 4%N ["See [`Pallet::freeze`]."%string])]) ["Contains a variant per dispatchable extrinsic that this pallet has."%string]).
Definition md_t88 : ty := (Ty ["sp_runtime"%string; "multiaddress"%string; "MultiAddress"%string] [("AccountId"%string,(Some 0%N)); ("AccountIndex"%string,(Some 34%N))] (TVariant [(Variant "Id"%string [(Field None 0%N (Some "AccountId"%string) [])] 0%N []); (Variant "Index"%string [(Field None 89%N (Some "AccountIndex"%string) [])] 1%N []); (Variant "Raw"%string [(Field None 13%N (Some "Vec<u8>"%string) [])] 2%N []); (Variant "Address32"%string [(Field None 1%N (Some "[u8; 32]"%string) [])] 3%N []); (Variant "Address20"%string [(Field None 90%N (Some "[u8; 20]"%string) [])] 4%N [])]) []).
Definition md_t89 : ty := (Ty [] [] (TCompact 34%N) []).
Definition md_t90 : ty := (Ty [] [] (TArray 20%N 2%N) []).
Definition md_t91 : ty := (Ty ["pallet_balances"%string; "pallet"%string; "Call"%string] [("T"%string,None); ("I"%string,None)] (TVariant [(Variant "transfer_allow_death"%string [(Field (Some "dest"%string) 88%N (Some "AccountIdLookupOf<T>"%string) []); (Field (Some "value"%string) 60%N (Some "T::Balance"%string) [])] 0%N ["See [`Pallet::transfer_allow_death`]."%string]); (Variant "set_balance_deprecated"%string [(Field (Some "who"%string) 88%N (Some "AccountIdLookupOf<T>"%string) []); (Field (Some "new_free"%string) 60%N (Some "T::Balance"%string) []); (Field (Some "old_reserved"%string) 60%N (Some "T::Balance"%string) [])] 1%N ["See [`Pallet::set_balance_deprecated`]."%string]); (Variant "force_transfer"%string [(Field (Some "source"%string) 88%N (Some "AccountIdLookupOf<T>"%string) []); (Field (Some "dest"%string) 88%N (Some "AccountIdLookupOf<T>"%string) []); (Field (Some "value"%string) 60%N (Some "T::Balance"%string) [])] 2%N ["See [`Pallet::force_transfer`]."%string]); (Variant "transfer_keep_alive"%string [(Field (Some "dest"%string) 88%N (Some "AccountIdLookupOf<T>"%string) []); (Field (Some "value"%string) 60%N (Some "T::Balance"%string) [])] 3%N ["See [`Pallet::transfer_keep_alive`]."%string]); (Variant "transfer_all"%string [(Field (Some "dest"%string) 88%N (Some "AccountIdLookupOf<T>"%string) []); (Field (Some "keep_alive"%string) 44%N (Some "bool"%string) [])] 4%N ["See [`Pallet::transfer_all`]."%string]); (Variant "force_unreserve"%string [(Field (Some "who"%string) 88%N (Some "AccountIdLookupOf<T>"%string) []); (Field (Some "amount"%string) 6%N (Some "T::Balance"%string) [])] 5%N ["See [`Pallet::force_unreserve`]."%string]); (Variant "upgrade_accounts"%string [(Field (Some "who"%string) 92%N (Some "Vec<T::AccountId>"%string) [])] 6%N ["See [`Pallet::upgrade_accounts`]."%string]); (Variant "transfer"%string [(Field (Some "dest"%string) 88%N (Some "AccountIdLookupOf<T>"%string) []); (Field (Some "value"%string) 60%N (Some "T::Balance"%string) [])] 7%N ["See [`Pallet::transfer`]."%string]); (Variant "force_set_balance"%string [(Field (Some "who"%string) 88%N (Some "AccountIdLookupOf<T>"%string) []); (Field (Some "new_free"%string) 60%N (Some "T::Balance"%string) [])] 8%N ["See [`Pallet::force_set_balance`]."%string])]) ["Contains a variant per dispatchable extrinsic that this pallet has."%string]).
Definition md_t92 : ty := (Ty [] [] (TSequence 0%N) []).
Definition md_t93 : ty := (Ty ["pallet_staking"%string; "pallet"%string; "pallet"%string; "Call"%string] [("T"%string,None)] (TVariant [(Variant "bond"%string [(Field (Some "value"%string) 60%N (Some "BalanceOf<T>"%string) []); (Field (Some "payee"%string) 94%N (Some "RewardDestination<T::AccountId>"%string) [])] 0%N ["See [`Pallet::bond`]."%string]); (Variant "bond_extra"%string [(Field (Some "max_additional"%string) 60%N (Some "BalanceOf<T>"%string) [])] 1%N ["See [`Pallet::bond_extra`]."%string]); (Variant "unbond"%string [(Field (Some "value"%string) 60%N (Some "BalanceOf<T>"%string) [])] 2%N ["See [`Pallet::unbond`]."%string]); (Variant "withdraw_unbonded"%string [(Field (Some "num_slashing_spans"%string) 4%N (Some "u32"%string) [])] 3%N ["See [`Pallet::withdraw_unbonded`]."%string]); (Variant "validate"%string [(Field (Some "prefs"%string) 42%N (Some "ValidatorPrefs"%string) [])] 4%N ["See [`Pallet::validate`]."%string]); (Variant "nominate"%string [(Field (Some "targets"%string) 95%N (Some "Vec<AccountIdLookupOf<T>>"%string) [])] 5%N ["See [`Pallet::nominate`]."%string]); (Variant "chill"%string [] 6%N ["See [`Pallet::chill`]."%string]); (Variant "set_payee"%string [(Field (Some "payee"%string) 94%N (Some "RewardDestination<T::AccountId>"%string) [])] 7%N ["See [`Pallet::set_payee`]."%string]); (Variant "set_controller"%string [] 8%N ["See [`Pallet::set_controller`]."%string]); (Variant "set_validator_count"%string [(Field (Some "new"%string) 79%N (Some "u32"%string) [])] 9%N ["See [`Pallet::set_validator_count`]."%string]); (Variant "increase_validator_count"%string [(Field (Some "additional"%string) 79%N (Some "u32"%string) [])] 10%N ["See [`Pallet::increase_validator_count`]."%string]); (Variant "scale_validator_count"%string [(Field (Some "factor"%string) 96%N (Some "Percent"%string) [])] 11%N ["See [`Pallet::scale_validator_count`]."%string]); (Variant "force_no_eras"%string [] 12%N ["See [`Pallet::force_no_eras`]."%string]); (Variant "force_new_era"%string [] 13%N ["See [`Pallet::force_new_era`]."%string]); (Variant "set_invulnerables"%string [(Field (Some "invulnerables"%string) 92%N (Some "Vec<T::AccountId>"%string) [])] 14%N ["See [`Pallet::set_invulnerables`]."%string]); (Variant "force_unstake"%string [(Field (Some "stash"%string) 0%N (Some "T::AccountId"%string) []); (Field (Some "num_slashing_spans"%string) 4%N (Some "u32"%string) [])] 15%N ["See [`Pallet::force_unstake`]."%string]); (Variant "force_new_era_always"%string [] 16%N ["See [`Pallet::force_new_era_always`]."%string]); (Variant "cancel_deferred_slash"%string [(Field (Some "era"%string) 4%N (Some "EraIndex"%string) []); (Field (Some "slash_indices"%string) 97%N (Some "Vec<u32>"%string) [])] 17%N ["See [`Pallet::cancel_deferred_slash`]."%string]); (Variant "payout_stakers"%string [(Field (Some "validator_stash"%string) 0%N (Some "T::AccountId"%string) []); (Field (Some "era"%string) 4%N (Some "EraIndex"%string) [])] 18%N ["See [`Pallet::payout_stakers`]."%string]); (Variant "rebond"%string [(Field (Some "value"%string) 60%N (Some "BalanceOf<T>"%string) [])] 19%N ["See [`Pallet::rebond`]."%string]); (Variant "reap_stash"%string [(Field (Some "stash"%string) 0%N (Some "T::AccountId"%string) []); (Field (Some "num_slashing_spans"%string) 4%N (Some "u32"%string) [])] 20%N ["See [`Pallet::reap_stash`]."%string]); (Variant "kick"%string [(Field (Some "who"%string) 95%N (Some "Vec<AccountIdLookupOf<T>>"%string) [])] 21%N ["See [`Pallet::kick`]."%string]); (Variant "set_staking_configs"%string [(Field (Some "min_nominator_bond"%string) 98%N (Some "ConfigOp<BalanceOf<T>>"%string) []); (Field (Some "min_validator_bond"%string) 98%N (Some "ConfigOp<BalanceOf<T>>"%string) []); (Field (Some "max_nominator_count"%string) 99%N (Some "ConfigOp<u32>"%string) []); (Field (Some "max_validator_count"%string) 99%N (Some "ConfigOp<u32>"%string) []); (Field (Some "chill_threshold"%string) 100%N (Some "ConfigOp<Percent>"%string) []); (Field (Some "min_commission"%string) 101%N (Some "ConfigOp<Perbill>"%string) [])] 22%N ["See [`Pallet::set_staking_configs`]."%string]); (Variant "chill_other"%string [(Field (Some "controller"%string) 0%N (Some "T::AccountId"%string) [])] 23%N ["See [`Pallet::chill_other`]."%string]); (Variant "force_apply_min_commission"%string [(Field (Some "validator_stash"%string) 0%N (Some "T::AccountId"%string) [])] 24%N ["See [`Pallet::force_apply_min_commission`]."%string]); (Variant "set_min_commission"%string [(Field (Some "new"%string) 41%N (Some "Perbill"%string) [])] 25%N ["See [`Pallet::set_min_commission`]."%string])]) ["Contains a variant per dispatchable extrinsic that this pallet has."%string]).
Definition md_t94 : ty := (Ty ["pallet_staking"%string; "RewardDestination"%string] [("AccountId"%string,(Some 0%N))] (TVariant [(Variant "Staked"%string [] 0%N []); (Variant "Stash"%string [] 1%N []); (Variant "Controller"%string [] 2%N []); (Variant "Account"%string [(Field None 0%N (Some "AccountId"%string) [])] 3%N []); (Variant "None"%string [] 4%N [])]) []).
Definition md_t95 : ty := (Ty [] [] (TSequence 88%N) []).
Definition md_t96 : ty := (Ty ["sp_arithmetic"%string; "per_things"%string; "Percent"%string] [] (TComposite [(Field None 2%N (Some "u8"%string) [])]) []).
Definition md_t97 : ty := (Ty [] [] (TSequence 4%N) []).
Definition md_t98 : ty := (Ty ["pallet_staking"%string; "pallet"%string; "pallet"%string; "ConfigOp"%string] [("T"%string,(Some 6%N))] (TVariant [(Variant "Noop"%string [] 0%N []); (Variant "Set"%string [(Field None 6%N (Some "T"%string) [])] 1%N []); (Variant "Remove"%string [] 2%N [])]) []).
Definition md_t99 : ty := (Ty ["pallet_staking"%string; "pallet"%string; "pallet"%string; "ConfigOp"%string] [("T"%string,(Some 4%N))] (TVariant [(Variant "Noop"%string [] 0%N []); (Variant "Set"%string [(Field None 4%N (Some "T"%string) [])] 1%N []); (Variant "Remove"%string [] 2%N [])]) []).
Definition md_t100 : ty := (Ty ["pallet_staking"%string; "pallet"%string; "pallet"%string; "ConfigOp"%string] [("T"%string,(Some 96%N))] (TVariant [(Variant "Noop"%string [] 0%N []); (Variant "Set"%string [(Field None 96%N (Some "T"%string) [])] 1%N []); (Variant "Remove"%string [] 2%N [])]) []).
Definition md_t101 : ty := (Ty ["pallet_staking"%string; "pallet"%string; "pallet"%string; "ConfigOp"%string] [("T"%string,(Some 41%N))] (TVariant [(Variant "Noop"%string [] 0%N []); (Variant "Set"%string [(Field None 41%N (Some "T"%string) [])] 1%N []); (Variant "Remove"%string [] 2%N [])]) []).
Definition md_t102 : ty := (Ty ["pallet_session"%string; "pallet"%string; "Call"%string] [("T"%string,None)] (TVariant [(Variant "set_keys"%string [(Field (Some "keys"%string) 103%N (Some "T::Keys"%string) []); (Field (Some "proof"%string) 13%N (Some "Vec<u8>"%string) [])] 0%N ["See [`Pallet::set_keys`]."%string]); (Variant "purge_keys"%string [] 1%N ["See [`Pallet::purge_keys`]."%string])]) ["Contains a variant per dispatchable extrinsic that this pallet has."%string]).
Definition md_t103 : ty := (Ty ["polkadot_runtime"%string; "SessionKeys"%string] [] (TComposite [(Field (Some "grandpa"%string) 52%N (Some "<Grandpa as $crate::BoundToRuntimeAppPublic>::Public"%string) []); (Field (Some "babe"%string) 80%N (Some "<Babe as $crate::BoundToRuntimeAppPublic>::Public"%string) []); (Field (Some "im_online"%string) 55%N (Some "<ImOnline as $crate::BoundToRuntimeAppPublic>::Public"%string) []); (Field (Some "para_validator"%string) 104%N (Some "<Initializer as $crate::BoundToRuntimeAppPublic>::Public"%string) []); (Field (Some "para_assignment"%string) 105%N (Some "<ParaSessionInfo as $crate::BoundToRuntimeAppPublic>::Public"%string) []); (Field (Some "authority_discovery"%string) 106%N (Some "<AuthorityDiscovery as $crate::BoundToRuntimeAppPublic>::Public"%string) [])]) []).
Definition md_t104 : ty := (Ty ["polkadot_primitives"%string; "v5"%string; "validator_app"%string; "Public"%string] [] (TComposite [(Field None 56%N (Some "sr25519::Public"%string) [])]) []).
Definition md_t105 : ty := (Ty ["polkadot_primitives"%string; "v5"%string; "assignment_app"%string; "Public"%string] [] (TComposite [(Field None 56%N (Some "sr25519::Public"%string) [])]) []).
Definition md_t106 : ty := (Ty ["sp_authority_discovery"%string; "app"%string; "Public"%string] [] (TComposite [(Field None 56%N (Some "sr25519::Public"%string) [])]) []).
Definition md_t107 : ty := (Ty ["pallet_grandpa"%string; "pallet"%string; "Call"%string] [("T"%string,None)] (TVariant [(Variant "report_equivocation"%string [(Field (Some "equivocation_proof"%string) 108%N (Some "Box<EquivocationProof<T::Hash, BlockNumberFor<T>>>"%string) []); (Field (Some "key_owner_proof"%string) 82%N (Some "T::KeyOwnerProof"%string) [])] 0%N ["See [`Pallet::report_equivocation`]."%string]); (Variant "report_equivocation_unsigned"%string [(Field (Some "equivocation_proof"%string) 108%N (Some "Box<EquivocationProof<T::Hash, BlockNumberFor<T>>>"%string) []); (Field (Some "key_owner_proof"%string) 82%N (Some "T::KeyOwnerProof"%string) [])] 1%N ["See [`Pallet::report_equivocation_unsigned`]."%string]); (Variant "note_stalled"%string [(Field (Some "delay"%string) 4%N (Some "BlockNumberFor<T>"%string) []); (Field (Some "best_finalized_block_number"%string) 4%N (Some "BlockNumberFor<T>"%string) [])] 2%N ["See [`Pallet::note_stalled`]."%string])]) ["Contains a variant per dispatchable extrinsic that this pallet has."%string]).
Definition md_t108 : ty := (Ty ["sp_consensus_grandpa"%string; "EquivocationProof"%string] [("H"%string,(Some 12%N)); ("N"%string,(Some 4%N))] (TComposite [(Field (Some "set_id"%string) 11%N (Some "SetId"%string) []); (Field (Some "equivocation"%string) 109%N (Some "Equivocation<H, N>"%string) [])]) []).
Definition md_t109 : ty := (Ty ["sp_consensus_grandpa"%string; "Equivocation"%string] [("H"%string,(Some 12%N)); ("N"%string,(Some 4%N))] (TVariant [(Variant "Prevote"%string [(Field None 110%N (Some "grandpa::Equivocation<AuthorityId, grandpa::Prevote<H, N>,
AuthoritySignature>"%string) [])] 0%N []); (Variant "Precommit"%string [(Field None 116%N (Some "grandpa::Equivocation<AuthorityId, grandpa::Precommit<H, N>,
AuthoritySignature>"%string) [])] 1%N [])]) []).
Definition md_t110 : ty := (Ty ["finality_grandpa"%string; "Equivocation"%string] [("Id"%string,(Some 52%N)); ("V"%string,(Some 111%N)); ("S"%string,(Some 112%N))] (TComposite [(Field (Some "round_number"%string) 11%N (Some "u64"%string) []); (Field (Some "identity"%string) 52%N (Some "Id"%string) []); (Field (Some "first"%string) 115%N (Some "(V, S)"%string) []); (Field (Some "second"%string) 115%N (Some "(V, S)"%string) [])]) []).
Definition md_t111 : ty := (Ty ["finality_grandpa"%string; "Prevote"%string] [("H"%string,(Some 12%N)); ("N"%string,(Some 4%N))] (TComposite [(Field (Some "target_hash"%string) 12%N (Some "H"%string) []); (Field (Some "target_number"%string) 4%N (Some "N"%string) [])]) []).
Definition md_t112 : ty := (Ty ["sp_consensus_grandpa"%string; "app"%string; "Signature"%string] [] (TComposite [(Field None 113%N (Some "ed25519::Signature"%string) [])]) []).
Definition md_t113 : ty := (Ty ["sp_core"%string; "ed25519"%string; "Signature"%string] [] (TComposite [(Field None 114%N (Some "[u8; 64]"%string) [])]) []).
Definition md_t114 : ty := (Ty [] [] (TArray 64%N 2%N) []).
Definition md_t115 : ty := (Ty [] [] (TTuple [111%N; 112%N]) []).
Definition md_t116 : ty := (Ty ["finality_grandpa"%string; "Equivocation"%string] [("Id"%string,(Some 52%N)); ("V"%string,(Some 117%N)); ("S"%string,(Some 112%N))] (TComposite [(Field (Some "round_number"%string) 11%N (Some "u64"%string) []); (Field (Some "identity"%string) 52%N (Some "Id"%string) []); (Field (Some "first"%string) 118%N (Some "(V, S)"%string) []); (Field (Some "second"%string) 118%N (Some "(V, S)"%string) [])]) []).
Definition md_t117 : ty := (Ty ["finality_grandpa"%string; "Precommit"%string] [("H"%string,(Some 12%N)); ("N"%string,(Some 4%N))] (TComposite [(Field (Some "target_hash"%string) 12%N (Some "H"%string) []); (Field (Some "target_number"%string) 4%N (Some "N"%string) [])]) []).
Definition md_t118 : ty := (Ty [] [] (TTuple [117%N; 112%N]) []).
Definition md_t119 : ty := (Ty ["pallet_im_online"%string; "pallet"%string; "Call"%string] [("T"%string,None)] (TVariant [(Variant "heartbeat"%string [(Field (Some "heartbeat"%string) 120%N (Some "Heartbeat<BlockNumberFor<T>>"%string) []); (Field (Some "signature"%string) 121%N (Some "<T::AuthorityId as RuntimeAppPublic>::Signature"%string) [])] 0%N ["See [`Pallet::heartbeat`]."%string])]) ["Contains a variant per dispatchable extrinsic that this pallet has."%string]).
Definition md_t120 : ty := (Ty ["pallet_im_online"%string; "Heartbeat"%string] [("BlockNumber"%string,(Some 4%N))] (TComposite [(Field (Some "block_number"%string) 4%N (Some "BlockNumber"%string) []); (Field (Some "session_index"%string) 4%N (Some "SessionIndex"%string) []); (Field (Some "authority_index"%string) 4%N (Some "AuthIndex"%string) []); (Field (Some "validators_len"%string) 4%N (Some "u32"%string) [])]) []).
Definition md_t121 : ty := (Ty ["pallet_im_online"%string; "sr25519"%string; "app_sr25519"%string; "Signature"%string] [] (TComposite [(Field None 122%N (Some "sr25519::Signature"%string) [])]) []).
Definition md_t122 : ty := (Ty ["sp_core"%string; "sr25519"%string; "Signature"%string] [] (TComposite [(Field None 114%N (Some "[u8; 64]"%string) [])]) []).
Definition md_t123 : ty := (Ty ["pallet_treasury"%string; "pallet"%string; "Call"%string] [("T"%string,None); ("I"%string,None)] (TVariant [(Variant "propose_spend"%string [(Field (Some "value"%string) 60%N (Some "BalanceOf<T, I>"%string) []); (Field (Some "beneficiary"%string) 88%N (Some "AccountIdLookupOf<T>"%string) [])] 0%N ["See [`Pallet::propose_spend`]."%string]); (Variant "reject_proposal"%string [(Field (Some "proposal_id"%string) 79%N (Some "ProposalIndex"%string) [])] 1%N ["See [`Pallet::reject_proposal`]."%string]); (Variant "approve_proposal"%string [(Field (Some "proposal_id"%string) 79%N (Some "ProposalIndex"%string) [])] 2%N ["See [`Pallet::approve_proposal`]."%string]); (Variant "spend"%string [(Field (Some "amount"%string) 60%N (Some "BalanceOf<T, I>"%string) []); (Field (Some "beneficiary"%string) 88%N (Some "AccountIdLookupOf<T>"%string) [])] 3%N ["See [`Pallet::spend`]."%string]); (Variant "remove_approval"%string [(Field (Some "proposal_id"%string) 79%N (Some "ProposalIndex"%string) [])] 4%N ["See [`Pallet::remove_approval`]."%string])]) ["Contains a variant per dispatchable extrinsic that this pallet has."%string]).
Definition md_t124 : ty := (Ty ["pallet_conviction_voting"%string; "pallet"%string; "Call"%string] [("T"%string,None); ("I"%string,None)] (TVariant [(Variant "vote"%string [(Field (Some "poll_index"%string) 79%N (Some "PollIndexOf<T, I>"%string) []); (Field (Some "vote"%string) 125%N (Some "AccountVote<BalanceOf<T, I>>"%string) [])] 0%N ["See [`Pallet::vote`]."%string]); (Variant "delegate"%string [(Field (Some "class"%string) 66%N (Some "ClassOf<T, I>"%string) []); (Field (Some "to"%string) 88%N (Some "AccountIdLookupOf<T>"%string) []); (Field (Some "conviction"%string) 127%N (Some "Conviction"%string) []); (Field (Some "balance"%string) 6%N (Some "BalanceOf<T, I>"%string) [])] 1%N ["See [`Pallet::delegate`]."%string]); (Variant "undelegate"%string [(Field (Some "class"%string) 66%N (Some "ClassOf<T, I>"%string) [])] 2%N ["See [`Pallet::undelegate`]."%string]); (Variant "unlock"%string [(Field (Some "class"%string) 66%N (Some "ClassOf<T, I>"%string) []); (Field (Some "target"%string) 88%N (Some "AccountIdLookupOf<T>"%string) [])] 3%N ["See [`Pallet::unlock`]."%string]); (Variant "remove_vote"%string [(Field (Some "class"%string) 128%N (Some "Option<ClassOf<T, I>>"%string) []); (Field (Some "index"%string) 4%N (Some "PollIndexOf<T, I>"%string) [])] 4%N ["See [`Pallet::remove_vote`]."%string]); (Variant "remove_other_vote"%string [(Field (Some "target"%string) 88%N (Some "AccountIdLookupOf<T>"%string) []); (Field (Some "class"%string) 66%N (Some "ClassOf<T, I>"%string) []); (Field (Some "index"%string) 4%N (Some "PollIndexOf<T, I>"%string) [])] 5%N ["See [`Pallet::remove_other_vote`]."%string])]) ["Contains a variant per dispatchable extrinsic that this pallet has."%string]).
Definition md_t125 : ty := (Ty ["pallet_conviction_voting"%string; "vote"%string; "AccountVote"%string] [("Balance"%string,(Some 6%N))] (TVariant [(Variant "Standard"%string [(Field (Some "vote"%string) 126%N (Some "Vote"%string) []); (Field (Some "balance"%string) 6%N (Some "Balance"%string) [])] 0%N []); (Variant "Split"%string [(Field (Some "aye"%string) 6%N (Some "Balance"%string) []); (Field (Some "nay"%string) 6%N (Some "Balance"%string) [])] 1%N []); (Variant "SplitAbstain"%string [(Field (Some "aye"%string) 6%N (Some "Balance"%string) []); (Field (Some "nay"%string) 6%N (Some "Balance"%string) []); (Field (Some "abstain"%string) 6%N (Some "Balance"%string) [])] 2%N [])]) []).
Definition md_t126 : ty := (Ty ["pallet_conviction_voting"%string; "vote"%string; "Vote"%string] [] (TComposite [(Field None 2%N None [])]) []).
Definition md_t127 : ty := (Ty ["pallet_conviction_voting"%string; "conviction"%string; "Conviction"%string] [] (TVariant [(Variant "None"%string [] 0%N []); (Variant "Locked1x"%string [] 1%N []); (Variant "Locked2x"%string [] 2%N []); (Variant "Locked3x"%string [] 3%N []); (Variant "Locked4x"%string [] 4%N []); (Variant "Locked5x"%string [] 5%N []); (Variant "Locked6x"%string [] 6%N [])]) []).
Definition md_t128 : ty := (Ty ["Option"%string] [("T"%string,(Some 66%N))] (TVariant [(Variant "None"%string [] 0%N []); (Variant "Some"%string [(Field None 66%N None [])] 1%N [])]) []).
Definition md_t129 : ty := (Ty ["pallet_referenda"%string; "pallet"%string; "Call"%string] [("T"%string,None); ("I"%string,None)] (TVariant [(Variant "submit"%string [(Field (Some "proposal_origin"%string) 130%N (Some "Box<PalletsOriginOf<T>>"%string) []); (Field (Some "proposal"%string) 67%N (Some "BoundedCallOf<T, I>"%string) []); (Field (Some "enactment_moment"%string) 144%N (Some "DispatchTime<BlockNumberFor<T>>"%string) [])] 0%N ["See [`Pallet::submit`]."%string]); (Variant "place_decision_deposit"%string [(Field (Some "index"%string) 4%N (Some "ReferendumIndex"%string) [])] 1%N ["See [`Pallet::place_decision_deposit`]."%string]); (Variant "refund_decision_deposit"%string [(Field (Some "index"%string) 4%N (Some "ReferendumIndex"%string) [])] 2%N ["See [`Pallet::refund_decision_deposit`]."%string]); (Variant "cancel"%string [(Field (Some "index"%string) 4%N (Some "ReferendumIndex"%string) [])] 3%N ["See [`Pallet::cancel`]."%string]); (Variant "kill"%string [(Field (Some "index"%string) 4%N (Some "ReferendumIndex"%string) [])] 4%N ["See [`Pallet::kill`]."%string]); (Variant "nudge_referendum"%string [(Field (Some "index"%string) 4%N (Some "ReferendumIndex"%string) [])] 5%N ["See [`Pallet::nudge_referendum`]."%string]); (Variant "one_fewer_deciding"%string [(Field (Some "track"%string) 66%N (Some "TrackIdOf<T, I>"%string) [])] 6%N ["See [`Pallet::one_fewer_deciding`]."%string]); (Variant "refund_submission_deposit"%string [(Field (Some "index"%string) 4%N (Some "ReferendumIndex"%string) [])] 7%N ["See [`Pallet::refund_submission_deposit`]."%string]); (Variant "set_metadata"%string [(Field (Some "index"%string) 4%N (Some "ReferendumIndex"%string) []); (Field (Some "maybe_hash"%string) 145%N (Some "Option<PreimageHash>"%string) [])] 8%N ["See [`Pallet::set_metadata`]."%string])]) ["Contains a variant per dispatchable extrinsic that this pallet has."%string]).
Definition md_t130 : ty := (Ty ["polkadot_runtime"%string; "OriginCaller"%string] [] (TVariant [(Variant "system"%string [(Field None 131%N (Some "frame_system::Origin<Runtime>"%string) [])] 0%N []); (Variant "Origins"%string [(Field None 132%N (Some "pallet_custom_origins::Origin"%string) [])] 22%N []); (Variant "ParachainsOrigin"%string [(Field None 133%N (Some "parachains_origin::Origin"%string) [])] 50%N []); (Variant "XcmPallet"%string [(Field None 135%N (Some "pallet_xcm::Origin"%string) [])] 99%N []); (Variant "Void"%string [(Field None 143%N (Some "self::sp_api_hidden_includes_construct_runtime::hidden_include::
__private::Void"%string) [])] 4%N [])]) []).
Definition md_t131 : ty := (Ty ["frame_support"%string; "dispatch"%string; "RawOrigin"%string] [("AccountId"%string,(Some 0%N))] (TVariant [(Variant "Root"%string [] 0%N []); (Variant "Signed"%string [(Field None 0%N (Some "AccountId"%string) [])] 1%N []); (Variant "None"%string [] 2%N [])]) []).
Definition md_t132 : ty := (Ty ["polkadot_runtime"%string; "governance"%string; "origins"%string; "pallet_custom_origins"%string; "Origin"%string] [] (TVariant [(Variant "StakingAdmin"%string [] 0%N []); (Variant "Treasurer"%string [] 1%N []); (Variant "FellowshipAdmin"%string [] 2%N []); (Variant "GeneralAdmin"%string [] 3%N []); (Variant "AuctionAdmin"%string [] 4%N []); (Variant "LeaseAdmin"%string [] 5%N []); (Variant "ReferendumCanceller"%string [] 6%N []); (Variant "ReferendumKiller"%string [] 7%N []); (Variant "SmallTipper"%string [] 8%N []); (Variant "BigTipper"%string [] 9%N []); (Variant "SmallSpender"%string [] 10%N []); (Variant "MediumSpender"%string [] 11%N []); (Variant "BigSpender"%string [] 12%N []); (Variant "WhitelistedCaller"%string [] 13%N [])]) []).
Definition md_t133 : ty := (Ty ["polkadot_runtime_parachains"%string; "origin"%string; "pallet"%string; "Origin"%string] [] (TVariant [(Variant "Parachain"%string [(Field None 134%N (Some "ParaId"%string) [])] 0%N [])]) []).
Definition md_t134 : ty := (Ty ["polkadot_parachain_primitives"%string; "primitives"%string; "Id"%string] [] (TComposite [(Field None 4%N (Some "u32"%string) [])]) []).
Definition md_t135 : ty := (Ty ["pallet_xcm"%string; "pallet"%string; "Origin"%string] [] (TVariant [(Variant "Xcm"%string [(Field None 136%N (Some "MultiLocation"%string) [])] 0%N []); (Variant "Response"%string [(Field None 136%N (Some "MultiLocation"%string) [])] 1%N [])]) []).
Definition md_t136 : ty := (Ty ["staging_xcm"%string; "v3"%string; "multilocation"%string; "MultiLocation"%string] [] (TComposite [(Field (Some "parents"%string) 2%N (Some "u8"%string) []); (Field (Some "interior"%string) 137%N (Some "Junctions"%string) [])]) []).
Definition md_t137 : ty := (Ty ["xcm"%string; "v3"%string; "junctions"%string; "Junctions"%string] [] (TVariant [(Variant "Here"%string [] 0%N []); (Variant "X1"%string [(Field None 138%N (Some "Junction"%string) [])] 1%N []); (Variant "X2"%string [(Field None 138%N (Some "Junction"%string) []); (Field None 138%N (Some "Junction"%string) [])] 2%N []); (Variant "X3"%string [(Field None 138%N (Some "Junction"%string) []); (Field None 138%N (Some "Junction"%string) []); (Field None 138%N (Some "Junction"%string) [])] 3%N []); (Variant "X4"%string [(Field None 138%N (Some "Junction"%string) []); (Field None 138%N (Some "Junction"%string) []); (Field None 138%N (Some "Junction"%string) []); (Field None 138%N (Some "Junction"%string) [])] 4%N []); (Variant "X5"%string [(Field None 138%N (Some "Junction"%string) []); (Field None 138%N (Some "Junction"%string) []); (Field None 138%N (Some "Junction"%string) []); (Field None 138%N (Some "Junction"%string) []); (Field None 138%N (Some "Junction"%string) [])] 5%N []); (Variant "X6"%string [(Field None 138%N (Some "Junction"%string) []); (Field None 138%N (Some "Junction"%string) []); (Field None 138%N (Some "Junction"%string) []); (Field None 138%N (Some "Junction"%string) []); (Field None 138%N (Some "Junction"%string) []); (Field None 138%N (Some "Junction"%string) [])] 6%N []); (Variant "X7"%string [(Field None 138%N (Some "Junction"%string) []); (Field None 138%N (Some "Junction"%string) []); (Field None 138%N (Some "Junction"%string) []); (Field None 138%N (Some "Junction"%string) []); (Field None 138%N (Some "Junction"%string) []); (Field None 138%N (Some "Junction"%string) []); (Field None 138%N (Some "Junction"%string) [])] 7%N []); (Variant "X8"%string [(Field None 138%N (Some "Junction"%string) []); (Field None 138%N (Some "Junction"%string) []); (Field None 138%N (Some "Junction"%string) []); (Field None 138%N (Some "Junction"%string) []); (Field None 138%N (Some "Junction"%string) []); (Field None 138%N (Some "Junction"%string) []); (Field None 138%N (Some "Junction"%string) []); (Field None 138%N (Some "Junction"%string) [])] 8%N [])]) []).
Definition md_t138 : ty := (Ty ["xcm"%string; "v3"%string; "junction"%string; "Junction"%string] [] (TVariant [(Variant "Parachain"%string [(Field None 79%N (Some "u32"%string) [])] 0%N []); (Variant "AccountId32"%string [(Field (Some "network"%string) 139%N (Some "Option<NetworkId>"%string) []); (Field (Some "id"%string) 1%N (Some "[u8; 32]"%string) [])] 1%N []); (Variant "AccountIndex64"%string [(Field (Some "network"%string) 139%N (Some "Option<NetworkId>"%string) []); (Field (Some "index"%string) 10%N (Some "u64"%string) [])] 2%N []); (Variant "AccountKey20"%string [(Field (Some "network"%string) 139%N (Some "Option<NetworkId>"%string) []); (Field (Some "key"%string) 90%N (Some "[u8; 20]"%string) [])] 3%N []); (Variant "PalletInstance"%string [(Field None 2%N (Some "u8"%string) [])] 4%N []); (Variant "GeneralIndex"%string [(Field None 60%N (Some "u128"%string) [])] 5%N []); (Variant "GeneralKey"%string [(Field (Some "length"%string) 2%N (Some "u8"%string) []); (Field (Some "data"%string) 1%N (Some "[u8; 32]"%string) [])] 6%N []); (Variant "OnlyChild"%string [] 7%N []); (Variant "Plurality"%string [(Field (Some "id"%string) 141%N (Some "BodyId"%string) []); (Field (Some "part"%string) 142%N (Some "BodyPart"%string) [])] 8%N []); (Variant "GlobalConsensus"%string [(Field None 140%N (Some "NetworkId"%string) [])] 9%N [])]) []).
Definition md_t139 : ty := (Ty ["Option"%string] [("T"%string,(Some 140%N))] (TVariant [(Variant "None"%string [] 0%N []); (Variant "Some"%string [(Field None 140%N None [])] 1%N [])]) []).
Definition md_t140 : ty := (Ty ["xcm"%string; "v3"%string; "junction"%string; "NetworkId"%string] [] (TVariant [(Variant "ByGenesis"%string [(Field None 1%N (Some "[u8; 32]"%string) [])] 0%N []); (Variant "ByFork"%string [(Field (Some "block_number"%string) 11%N (Some "u64"%string) []); (Field (Some "block_hash"%string) 1%N (Some "[u8; 32]"%string) [])] 1%N []); (Variant "Polkadot"%string [] 2%N []); (Variant "Kusama"%string [] 3%N []); (Variant "Westend"%string [] 4%N []); (Variant "Rococo"%string [] 5%N []); (Variant "Wococo"%string [] 6%N []); (Variant "Ethereum"%string [(Field (Some "chain_id"%string) 10%N (Some "u64"%string) [])] 7%N []); (Variant "BitcoinCore"%string [] 8%N []); (Variant "BitcoinCash"%string [] 9%N [])]) []).
Definition md_t141 : ty := (Ty ["xcm"%string; "v3"%string; "junction"%string; "BodyId"%string] [] (TVariant [(Variant "Unit"%string [] 0%N []); (Variant "Moniker"%string [(Field None 17%N (Some "[u8; 4]"%string) [])] 1%N []); (Variant "Index"%string [(Field None 79%N (Some "u32"%string) [])] 2%N []); (Variant "Executive"%string [] 3%N []); (Variant "Technical"%string [] 4%N []); (Variant "Legislative"%string [] 5%N []); (Variant "Judicial"%string [] 6%N []); (Variant "Defense"%string [] 7%N []); (Variant "Administration"%string [] 8%N []); (Variant "Treasury"%string [] 9%N [])]) []).
Definition md_t142 : ty := (Ty ["xcm"%string; "v3"%string; "junction"%string; "BodyPart"%string] [] (TVariant [(Variant "Voice"%string [] 0%N []); (Variant "Members"%string [(Field (Some "count"%string) 79%N (Some "u32"%string) [])] 1%N []); (Variant "Fraction"%string [(Field (Some "nom"%string) 79%N (Some "u32"%string) []); (Field (Some "denom"%string) 79%N (Some "u32"%string) [])] 2%N []); (Variant "AtLeastProportion"%string [(Field (Some "nom"%string) 79%N (Some "u32"%string) []); (Field (Some "denom"%string) 79%N (Some "u32"%string) [])] 3%N []); (Variant "MoreThanProportion"%string [(Field (Some "nom"%string) 79%N (Some "u32"%string) []); (Field (Some "denom"%string) 79%N (Some "u32"%string) [])] 4%N [])]) []).
Definition md_t143 : ty := (Ty ["sp_core"%string; "Void"%string] [] (TVariant []) []).
Definition md_t144 : ty := (Ty ["frame_support"%string; "traits"%string; "schedule"%string; "DispatchTime"%string] [("BlockNumber"%string,(Some 4%N))] (TVariant [(Variant "At"%string [(Field None 4%N (Some "BlockNumber"%string) [])] 0%N []); (Variant "After"%string [(Field None 4%N (Some "BlockNumber"%string) [])] 1%N [])]) []).
Definition md_t145 : ty := (Ty ["Option"%string] [("T"%string,(Some 12%N))] (TVariant [(Variant "None"%string [] 0%N []); (Variant "Some"%string [(Field None 12%N None [])] 1%N [])]) []).
Definition md_t146 : ty := (Ty ["pallet_whitelist"%string; "pallet"%string; "Call"%string] [("T"%string,None)] (TVariant [(Variant "whitelist_call"%string [(Field (Some "call_hash"%string) 12%N (Some "PreimageHash"%string) [])] 0%N ["See [`Pallet::whitelist_call`]."%string]); (Variant "remove_whitelisted_call"%string [(Field (Some "call_hash"%string) 12%N (Some "PreimageHash"%string) [])] 1%N ["See [`Pallet::remove_whitelisted_call`]."%string]); (Variant "dispatch_whitelisted_call"%string [(Field (Some "call_hash"%string) 12%N (Some "PreimageHash"%string) []); (Field (Some "call_encoded_len"%string) 4%N (Some "u32"%string) []); (Field (Some "call_weight_witness"%string) 9%N (Some "Weight"%string) [])] 2%N ["See [`Pallet::dispatch_whitelisted_call`]."%string]); (Variant "dispatch_whitelisted_call_with_preimage"%string [(Field (Some "call"%string) 68%N (Some "Box<<T as Config>::RuntimeCall>"%string) [])] 3%N ["See [`Pallet::dispatch_whitelisted_call_with_preimage`]."%string])]) ["Contains a variant per dispatchable extrinsic that this pallet has."%string]).
Definition md_t147 : ty := (Ty ["polkadot_runtime_common"%string; "claims"%string; "pallet"%string; "Call"%string] [("T"%string,None)] (TVariant [(Variant "claim"%string [(Field (Some "dest"%string) 0%N (Some "T::AccountId"%string) []); (Field (Some "ethereum_signature"%string) 148%N (Some "EcdsaSignature"%string) [])] 0%N ["See [`Pallet::claim`]."%string]); (Variant "mint_claim"%string [(Field (Some "who"%string) 150%N (Some "EthereumAddress"%string) []); (Field (Some "value"%string) 6%N (Some "BalanceOf<T>"%string) []); (Field (Some "vesting_schedule"%string) 151%N (Some "Option<(BalanceOf<T>, BalanceOf<T>, BlockNumberFor<T>)>"%string) []); (Field (Some "statement"%string) 153%N (Some "Option<StatementKind>"%string) [])] 1%N ["See [`Pallet::mint_claim`]."%string]); (Variant "claim_attest"%string [(Field (Some "dest"%string) 0%N (Some "T::AccountId"%string) []); (Field (Some "ethereum_signature"%string) 148%N (Some "EcdsaSignature"%string) []); (Field (Some "statement"%string) 13%N (Some "Vec<u8>"%string) [])] 2%N ["See [`Pallet::claim_attest`]."%string]); (Variant "attest"%string [(Field (Some "statement"%string) 13%N (Some "Vec<u8>"%string) [])] 3%N ["See [`Pallet::attest`]."%string]); (Variant "move_claim"%string [(Field (Some "old"%string) 150%N (Some "EthereumAddress"%string) []); (Field (Some "new"%string) 150%N (Some "EthereumAddress"%string) []); (Field (Some "maybe_preclaim"%string) 155%N (Some "Option<T::AccountId>"%string) [])] 4%N ["See [`Pallet::move_claim`]."%string])]) ["Contains a variant per dispatchable extrinsic that this pallet has."%string]).
Definition md_t148 : ty := (Ty ["polkadot_runtime_common"%string; "claims"%string; "EcdsaSignature"%string] [] (TComposite [(Field None 149%N (Some "[u8; 65]"%string) [])]) []).
Definition md_t149 : ty := (Ty [] [] (TArray 65%N 2%N) []).
Definition md_t150 : ty := (Ty ["polkadot_runtime_common"%string; "claims"%string; "EthereumAddress"%string] [] (TComposite [(Field None 90%N (Some "[u8; 20]"%string) [])]) []).
Definition md_t151 : ty := (Ty ["Option"%string] [("T"%string,(Some 152%N))] (TVariant [(Variant "None"%string [] 0%N []); (Variant "Some"%string [(Field None 152%N None [])] 1%N [])]) []).
Definition md_t152 : ty := (Ty [] [] (TTuple [6%N; 6%N; 4%N]) []).
Definition md_t153 : ty := (Ty ["Option"%string] [("T"%string,(Some 154%N))] (TVariant [(Variant "None"%string [] 0%N []); (Variant "Some"%string [(Field None 154%N None [])] 1%N [])]) []).
Definition md_t154 : ty := (Ty ["polkadot_runtime_common"%string; "claims"%string; "StatementKind"%string] [] (TVariant [(Variant "Regular"%string [] 0%N []); (Variant "Saft"%string [] 1%N [])]) []).
Definition md_t155 : ty := (Ty ["Option"%string] [("T"%string,(Some 0%N))] (TVariant [(Variant "None"%string [] 0%N []); (Variant "Some"%string [(Field None 0%N None [])] 1%N [])]) []).
Definition md_t156 : ty := (Ty ["pallet_vesting"%string; "pallet"%string; "Call"%string] [("T"%string,None)] (TVariant [(Variant "vest"%string [] 0%N ["See [`Pallet::vest`]."%string]); (Variant "vest_other"%string [(Field (Some "target"%string) 88%N (Some "AccountIdLookupOf<T>"%string) [])] 1%N ["See [`Pallet::vest_other`]."%string]); (Variant "vested_transfer"%string [(Field (Some "target"%string) 88%N (Some "AccountIdLookupOf<T>"%string) []); (Field (Some "schedule"%string) 157%N (Some "VestingInfo<BalanceOf<T>, BlockNumberFor<T>>"%string) [])] 2%N ["See [`Pallet::vested_transfer`]."%string]); (Variant "force_vested_transfer"%string [(Field (Some "source"%string) 88%N (Some "AccountIdLookupOf<T>"%string) []); (Field (Some "target"%string) 88%N (Some "AccountIdLookupOf<T>"%string) []); (Field (Some "schedule"%string) 157%N (Some "VestingInfo<BalanceOf<T>, BlockNumberFor<T>>"%string) [])] 3%N ["See [`Pallet::force_vested_transfer`]."%string]); (Variant "merge_schedules"%string [(Field (Some "schedule1_index"%string) 4%N (Some "u32"%string) []); (Field (Some "schedule2_index"%string) 4%N (Some "u32"%string) [])] 4%N ["See [`Pallet::merge_schedules`]."%string])]) ["Contains a variant per dispatchable extrinsic that this pallet has."%string]).
Definition md_t157 : ty := (Ty ["pallet_vesting"%string; "vesting_info"%string; "VestingInfo"%string] [("Balance"%string,(Some 6%N)); ("BlockNumber"%string,(Some 4%N))] (TComposite [(Field (Some "locked"%string) 6%N (Some "Balance"%string) []); (Field (Some "per_block"%string) 6%N (Some "Balance"%string) []); (Field (Some "starting_block"%string) 4%N (Some "BlockNumber"%string) [])]) []).
Definition md_t158 : ty := (Ty ["pallet_utility"%string; "pallet"%string; "Call"%string] [("T"%string,None)] (TVariant [(Variant "batch"%string [(Field (Some "calls"%string) 159%N (Some "Vec<<T as Config>::RuntimeCall>"%string) [])] 0%N ["See [`Pallet::batch`]."%string]); (Variant "as_derivative"%string [(Field (Some "index"%string) 66%N (Some "u16"%string) []); (Field (Some "call"%string) 68%N (Some "Box<<T as Config>::RuntimeCall>"%string) [])] 1%N ["See [`Pallet::as_derivative`]."%string]); (Variant "batch_all"%string [(Field (Some "calls"%string) 159%N (Some "Vec<<T as Config>::RuntimeCall>"%string) [])] 2%N ["See [`Pallet::batch_all`]."%string]); (Variant "dispatch_as"%string [(Field (Some "as_origin"%string) 130%N (Some "Box<T::PalletsOrigin>"%string) []); (Field (Some "call"%string) 68%N (Some "Box<<T as Config>::RuntimeCall>"%string) [])] 3%N ["See [`Pallet::dispatch_as`]."%string]); (Variant "force_batch"%string [(Field (Some "calls"%string) 159%N (Some "Vec<<T as Config>::RuntimeCall>"%string) [])] 4%N ["See [`Pallet::force_batch`]."%string]); (Variant "with_weight"%string [(Field (Some "call"%string) 68%N (Some "Box<<T as Config>::RuntimeCall>"%string) []); (Field (Some "weight"%string) 9%N (Some "Weight"%string) [])] 5%N ["See [`Pallet::with_weight`]."%string])]) ["Contains a variant per dispatchable extrinsic that this pallet has."%string]).
Definition md_t159 : ty := (Ty [] [] (TSequence 68%N) []).
Definition md_t160 : ty := (Ty ["pallet_identity"%string; "pallet"%string; "Call"%string] [("T"%string,None)] (TVariant [(Variant "add_registrar"%string [(Field (Some "account"%string) 88%N (Some "AccountIdLookupOf<T>"%string) [])] 0%N ["See [`Pallet::add_registrar`]."%string]); (Variant "set_identity"%string [(Field (Some "info"%string) 161%N (Some "Box<IdentityInfo<T::MaxAdditionalFields>>"%string) [])] 1%N ["See [`Pallet::set_identity`]."%string]); (Variant "set_subs"%string [(Field (Some "subs"%string) 196%N (Some "Vec<(T::AccountId, Data)>"%string) [])] 2%N ["See [`Pallet::set_subs`]."%string]); (Variant "clear_identity"%string [] 3%N ["See [`Pallet::clear_identity`]."%string]); (Variant "request_judgement"%string [(Field (Some "reg_index"%string) 79%N (Some "RegistrarIndex"%string) []); (Field (Some "max_fee"%string) 60%N (Some "BalanceOf<T>"%string) [])] 4%N ["See [`Pallet::request_judgement`]."%string]); (Variant "cancel_request"%string [(Field (Some "reg_index"%string) 4%N (Some "RegistrarIndex"%string) [])] 5%N ["See [`Pallet::cancel_request`]."%string]); (Variant "set_fee"%string [(Field (Some "index"%string) 79%N (Some "RegistrarIndex"%string) []); (Field (Some "fee"%string) 60%N (Some "BalanceOf<T>"%string) [])] 6%N ["See [`Pallet::set_fee`]."%string]); (Variant "set_account_id"%string [(Field (Some "index"%string) 79%N (Some "RegistrarIndex"%string) []); (Field (Some "new"%string) 88%N (Some "AccountIdLookupOf<T>"%string) [])] 7%N ["See [`Pallet::set_account_id`]."%string]); (Variant "set_fields"%string [(Field (Some "index"%string) 79%N (Some "RegistrarIndex"%string) []); (Field (Some "fields"%string) 198%N (Some "IdentityFields"%string) [])] 8%N ["See [`Pallet::set_fields`]."%string]); (Variant "provide_judgement"%string [(Field (Some "reg_index"%string) 79%N (Some "RegistrarIndex"%string) []); (Field (Some "target"%string) 88%N (Some "AccountIdLookupOf<T>"%string) []); (Field (Some "judgement"%string) 200%N (Some "Judgement<BalanceOf<T>>"%string) []); (Field (Some "identity"%string) 12%N (Some "T::Hash"%string) [])] 9%N ["See [`Pallet::provide_judgement`]."%string]); (Variant "kill_identity"%string [(Field (Some "target"%string) 88%N (Some "AccountIdLookupOf<T>"%string) [])] 10%N ["See [`Pallet::kill_identity`]."%string]); (Variant "add_sub"%string [(Field (Some "sub"%string) 88%N (Some "AccountIdLookupOf<T>"%string) []); (Field (Some "data"%string) 164%N (Some "Data"%string) [])] 11%N ["See [`Pallet::add_sub`]."%string]); (Variant "rename_sub"%string [(Field (Some "sub"%string) 88%N (Some "AccountIdLookupOf<T>"%string) []); (Field (Some "data"%string) 164%N (Some "Data"%string) [])] 12%N ["See [`Pallet::rename_sub`]."%string]); (Variant "remove_sub"%string [(Field (Some "sub"%string) 88%N (Some "AccountIdLookupOf<T>"%string) [])] 13%N ["See [`Pallet::remove_sub`]."%string]); (Variant "quit_sub"%string [] 14%N ["See [`Pallet::quit_sub`]."%string])]) ["Identity pallet declaration."%string]).
Definition md_t161 : ty := (Ty ["pallet_identity"%string; "types"%string; "IdentityInfo"%string] [("FieldLimit"%string,None)] (TComposite [(Field (Some "additional"%string) 162%N (Some "BoundedVec<(Data, Data), FieldLimit>"%string) []); (Field (Some "display"%string) 164%N (Some "Data"%string) []); (Field (Some "legal"%string) 164%N (Some "Data"%string) []); (Field (Some "web"%string) 164%N (Some "Data"%string) []); (Field (Some "riot"%string) 164%N (Some "Data"%string) []); (Field (Some "email"%string) 164%N (Some "Data"%string) []); (Field (Some "pgp_fingerprint"%string) 195%N (Some "Option<[u8; 20]>"%string) []); (Field (Some "image"%string) 164%N (Some "Data"%string) []); (Field (Some "twitter"%string) 164%N (Some "Data"%string) [])]) []).
Definition md_t162 : ty := (Ty ["bounded_collections"%string; "bounded_vec"%string; "BoundedVec"%string] [("T"%string,(Some 163%N)); ("S"%string,None)] (TComposite [(Field None 194%N (Some "Vec<T>"%string) [])]) []).
Definition md_t163 : ty := (Ty [] [] (TTuple [164%N; 164%N]) []).
Definition md_t164 : ty := (Ty ["pallet_identity"%string; "types"%string; "Data"%string] [] (TVariant [(Variant "None"%string [] 0%N []); (Variant "Raw0"%string [(Field None 165%N None [])] 1%N []); (Variant "Raw1"%string [(Field None 166%N None [])] 2%N []); (Variant "Raw2"%string [(Field None 167%N None [])] 3%N []); (Variant "Raw3"%string [(Field None 168%N None [])] 4%N []); (Variant "Raw4"%string [(Field None 17%N None [])] 5%N []); (Variant "Raw5"%string [(Field None 169%N None [])] 6%N []); (Variant "Raw6"%string [(Field None 170%N None [])] 7%N []); (Variant "Raw7"%string [(Field None 171%N None [])] 8%N []); (Variant "Raw8"%string [(Field None 172%N None [])] 9%N []); (Variant "Raw9"%string [(Field None 173%N None [])] 10%N []); (Variant "Raw10"%string [(Field None 174%N None [])] 11%N []); (Variant "Raw11"%string [(Field None 175%N None [])] 12%N []); (Variant "Raw12"%string [(Field None 176%N None [])] 13%N []); (Variant "Raw13"%string [(Field None 177%N None [])] 14%N []); (Variant "Raw14"%string [(Field None 178%N None [])] 15%N []); (Variant "Raw15"%string [(Field None 179%N None [])] 16%N []); (Variant "Raw16"%string [(Field None 47%N None [])] 17%N []); (Variant "Raw17"%string [(Field None 180%N None [])] 18%N []); (Variant "Raw18"%string [(Field None 181%N None [])] 19%N []); (Variant "Raw19"%string [(Field None 182%N None [])] 20%N []); (Variant "Raw20"%string [(Field None 90%N None [])] 21%N []); (Variant "Raw21"%string [(Field None 183%N None [])] 22%N []); (Variant "Raw22"%string [(Field None 184%N None [])] 23%N []); (Variant "Raw23"%string [(Field None 185%N None [])] 24%N []); (Variant "Raw24"%string [(Field None 186%N None [])] 25%N []); (Variant "Raw25"%string [(Field None 187%N None [])] 26%N []); (Variant "Raw26"%string [(Field None 188%N None [])] 27%N []); (Variant "Raw27"%string [(Field None 189%N None [])] 28%N []); (Variant "Raw28"%string [(Field None 190%N None [])] 29%N []); (Variant "Raw29"%string [(Field None 191%N None [])] 30%N []); (Variant "Raw30"%string [(Field None 192%N None [])] 31%N []); (Variant "Raw31"%string [(Field None 193%N None [])] 32%N []); (Variant "Raw32"%string [(Field None 1%N None [])] 33%N []); (Variant "BlakeTwo256"%string [(Field None 1%N None [])] 34%N []); (Variant "Sha256"%string [(Field None 1%N None [])] 35%N []); (Variant "Keccak256"%string [(Field None 1%N None [])] 36%N []); (Variant "ShaThree256"%string [(Field None 1%N None [])] 37%N [])]) []).
Definition md_t165 : ty := (Ty [] [] (TArray 0%N 2%N) []).
Definition md_t166 : ty := (Ty [] [] (TArray 1%N 2%N) []).
Definition md_t167 : ty := (Ty [] [] (TArray 2%N 2%N) []).
Definition md_t168 : ty := (Ty [] [] (TArray 3%N 2%N) []).
Definition md_t169 : ty := (Ty [] [] (TArray 5%N 2%N) []).
Definition md_t170 : ty := (Ty [] [] (TArray 6%N 2%N) []).
Definition md_t171 : ty := (Ty [] [] (TArray 7%N 2%N) []).
Definition md_t172 : ty := (Ty [] [] (TArray 8%N 2%N) []).
Definition md_t173 : ty := (Ty [] [] (TArray 9%N 2%N) []).
Definition md_t174 : ty := (Ty [] [] (TArray 10%N 2%N) []).
Definition md_t175 : ty := (Ty [] [] (TArray 11%N 2%N) []).
Definition md_t176 : ty := (Ty [] [] (TArray 12%N 2%N) []).
Definition md_t177 : ty := (Ty [] [] (TArray 13%N 2%N) []).
Definition md_t178 : ty := (Ty [] [] (TArray 14%N 2%N) []).
Definition md_t179 : ty := (Ty [] [] (TArray 15%N 2%N) []).
Definition md_t180 : ty := (Ty [] [] (TArray 17%N 2%N) []).
Definition md_t181 : ty := (Ty [] [] (TArray 18%N 2%N) []).
Definition md_t182 : ty := (Ty [] [] (TArray 19%N 2%N) []).
Definition md_t183 : ty := (Ty [] [] (TArray 21%N 2%N) []).
Definition md_t184 : ty := (Ty [] [] (TArray 22%N 2%N) []).
Definition md_t185 : ty := (Ty [] [] (TArray 23%N 2%N) []).
Definition md_t186 : ty := (Ty [] [] (TArray 24%N 2%N) []).
Definition md_t187 : ty := (Ty [] [] (TArray 25%N 2%N) []).
Definition md_t188 : ty := (Ty [] [] (TArray 26%N 2%N) []).
Definition md_t189 : ty := (Ty [] [] (TArray 27%N 2%N) []).
Definition md_t190 : ty := (Ty [] [] (TArray 28%N 2%N) []).
Definition md_t191 : ty := (Ty [] [] (TArray 29%N 2%N) []).
Definition md_t192 : ty := (Ty [] [] (TArray 30%N 2%N) []).
Definition md_t193 : ty := (Ty [] [] (TArray 31%N 2%N) []).
Definition md_t194 : ty := (Ty [] [] (TSequence 163%N) []).
Definition md_t195 : ty := (Ty ["Option"%string] [("T"%string,(Some 90%N))] (TVariant [(Variant "None"%string [] 0%N []); (Variant "Some"%string [(Field None 90%N None [])] 1%N [])]) []).
Definition md_t196 : ty := (Ty [] [] (TSequence 197%N) []).
Definition md_t197 : ty := (Ty [] [] (TTuple [0%N; 164%N]) []).
Definition md_t198 : ty := (Ty ["pallet_identity"%string; "types"%string; "BitFlags"%string] [("T"%string,(Some 199%N))] (TComposite [(Field None 11%N (Some "IdentityField"%string) [])]) []).
Definition md_t199 : ty := (Ty ["pallet_identity"%string; "types"%string; "IdentityField"%string] [] (TVariant [(Variant "Display"%string [] 1%N []); (Variant "Legal"%string [] 2%N []); (Variant "Web"%string [] 4%N []); (Variant "Riot"%string [] 8%N []); (Variant "Email"%string [] 16%N []); (Variant "PgpFingerprint"%string [] 32%N []); (Variant "Image"%string [] 64%N []); (Variant "Twitter"%string [] 128%N [])]) []).
Definition md_t200 : ty := (Ty ["pallet_identity"%string; "types"%string; "Judgement"%string] [("Balance"%string,(Some 6%N))] (TVariant [(Variant "Unknown"%string [] 0%N []); (Variant "FeePaid"%string [(Field None 6%N (Some "Balance"%string) [])] 1%N []); (Variant "Reasonable"%string [] 2%N []); (Variant "KnownGood"%string [] 3%N []); (Variant "OutOfDate"%string [] 4%N []); (Variant "LowQuality"%string [] 5%N []); (Variant "Erroneous"%string [] 6%N [])]) []).
Definition md_t201 : ty := (Ty ["pallet_proxy"%string; "pallet"%string; "Call"%string] [("T"%string,None)] (TVariant [(Variant "proxy"%string [(Field (Some "real"%string) 88%N (Some "AccountIdLookupOf<T>"%string) []); (Field (Some "force_proxy_type"%string) 202%N (Some "Option<T::ProxyType>"%string) []); (Field (Some "call"%string) 68%N (Some "Box<<T as Config>::RuntimeCall>"%string) [])] 0%N ["See [`Pallet::proxy`]."%string]); (Variant "add_proxy"%string [(Field (Some "delegate"%string) 88%N (Some "AccountIdLookupOf<T>"%string) []); (Field (Some "proxy_type"%string) 203%N (Some "T::ProxyType"%string) []); (Field (Some "delay"%string) 4%N (Some "BlockNumberFor<T>"%string) [])] 1%N ["See [`Pallet::add_proxy`]."%string]); (Variant "remove_proxy"%string [(Field (Some "delegate"%string) 88%N (Some "AccountIdLookupOf<T>"%string) []); (Field (Some "proxy_type"%string) 203%N (Some "T::ProxyType"%string) []); (Field (Some "delay"%string) 4%N (Some "BlockNumberFor<T>"%string) [])] 2%N ["See [`Pallet::remove_proxy`]."%string]); (Variant "remove_proxies"%string [] 3%N ["See [`Pallet::remove_proxies`]."%string]); (Variant "create_pure"%string [(Field (Some "proxy_type"%string) 203%N (Some "T::ProxyType"%string) []); (Field (Some "delay"%string) 4%N (Some "BlockNumberFor<T>"%string) []); (Field (Some "index"%string) 66%N (Some "u16"%string) [])] 4%N ["See [`Pallet::create_pure`]."%string]); (Variant "kill_pure"%string [(Field (Some "spawner"%string) 88%N (Some "AccountIdLookupOf<T>"%string) []); (Field (Some "proxy_type"%string) 203%N (Some "T::ProxyType"%string) []); (Field (Some "index"%string) 66%N (Some "u16"%string) []); (Field (Some "height"%string) 79%N (Some "BlockNumberFor<T>"%string) []); (Field (Some "ext_index"%string) 79%N (Some "u32"%string) [])] 5%N ["See [`Pallet::kill_pure`]."%string]); (Variant "announce"%string [(Field (Some "real"%string) 88%N (Some "AccountIdLookupOf<T>"%string) []); (Field (Some "call_hash"%string) 12%N (Some "CallHashOf<T>"%string) [])] 6%N ["See [`Pallet::announce`]."%string]); (Variant "remove_announcement"%string [(Field (Some "real"%string) 88%N (Some "AccountIdLookupOf<T>"%string) []); (Field (Some "call_hash"%string) 12%N (Some "CallHashOf<T>"%string) [])] 7%N ["See [`Pallet::remove_announcement`]."%string]); (Variant "reject_announcement"%string [(Field (Some "delegate"%string) 88%N (Some "AccountIdLookupOf<T>"%string) []); (Field (Some "call_hash"%string) 12%N (Some "CallHashOf<T>"%string) [])] 8%N ["See [`Pallet::reject_announcement`]."%string]); (Variant "proxy_announced"%string [(Field (Some "delegate"%string) 88%N (Some "AccountIdLookupOf<T>"%string) []); (Field (Some "real"%string) 88%N (Some "AccountIdLookupOf<T>"%string) []); (Field (Some "force_proxy_type"%string) 202%N (Some "Option<T::ProxyType>"%string) []); (Field (Some "call"%string) 68%N (Some "Box<<T as Config>::RuntimeCall>"%string) [])] 9%N ["See [`Pallet::proxy_announced`]."%string])]) ["Contains a variant per dispatchable extrinsic that this pallet has."%string]).
Definition md_t202 : ty := (Ty ["Option"%string] [("T"%string,(Some 203%N))] (TVariant [(Variant "None"%string [] 0%N []); (Variant "Some"%string [(Field None 203%N None [])] 1%N [])]) []).
Definition md_t203 : ty := (Ty ["polkadot_runtime"%string; "ProxyType"%string] [] (TVariant [(Variant "Any"%string [] 0%N []); (Variant "NonTransfer"%string [] 1%N []); (Variant "Governance"%string [] 2%N []); (Variant "Staking"%string [] 3%N []); (Variant "IdentityJudgement"%string [] 5%N []); (Variant "CancelProxy"%string [] 6%N []); (Variant "Auction"%string [] 7%N []); (Variant "NominationPools"%string [] 8%N [])]) []).
Definition md_t204 : ty := (Ty ["pallet_multisig"%string; "pallet"%string; "Call"%string] [("T"%string,None)] (TVariant [(Variant "as_multi_threshold_1"%string [(Field (Some "other_signatories"%string) 92%N (Some "Vec<T::AccountId>"%string) []); (Field (Some "call"%string) 68%N (Some "Box<<T as Config>::RuntimeCall>"%string) [])] 0%N ["See [`Pallet::as_multi_threshold_1`]."%string]); (Variant "as_multi"%string [(Field (Some "threshold"%string) 66%N (Some "u16"%string) []); (Field (Some "other_signatories"%string) 92%N (Some "Vec<T::AccountId>"%string) []); (Field (Some "maybe_timepoint"%string) 205%N (Some "Option<Timepoint<BlockNumberFor<T>>>"%string) []); (Field (Some "call"%string) 68%N (Some "Box<<T as Config>::RuntimeCall>"%string) []); (Field (Some "max_weight"%string) 9%N (Some "Weight"%string) [])] 1%N ["See [`Pallet::as_multi`]."%string]); (Variant "approve_as_multi"%string [(Field (Some "threshold"%string) 66%N (Some "u16"%string) []); (Field (Some "other_signatories"%string) 92%N (Some "Vec<T::AccountId>"%string) []); (Field (Some "maybe_timepoint"%string) 205%N (Some "Option<Timepoint<BlockNumberFor<T>>>"%string) []); (Field (Some "call_hash"%string) 1%N (Some "[u8; 32]"%string) []); (Field (Some "max_weight"%string) 9%N (Some "Weight"%string) [])] 2%N ["See [`Pallet::approve_as_multi`]."%string]); (Variant "cancel_as_multi"%string [(Field (Some "threshold"%string) 66%N (Some "u16"%string) []); (Field (Some "other_signatories"%string) 92%N (Some "Vec<T::AccountId>"%string) []); (Field (Some "timepoint"%string) 206%N (Some "Timepoint<BlockNumberFor<T>>"%string) []); (Field (Some "call_hash"%string) 1%N (Some "[u8; 32]"%string) [])] 3%N ["See [`Pallet::cancel_as_multi`]."%string])]) ["Contains a variant per dispatchable extrinsic that this pallet has."%string]).
Definition md_t205 : ty := (Ty ["Option"%string] [("T"%string,(Some 206%N))] (TVariant [(Variant "None"%string [] 0%N []); (Variant "Some"%string [(Field None 206%N None [])] 1%N [])]) []).
Definition md_t206 : ty := (Ty ["pallet_multisig"%string; "Timepoint"%string] [("BlockNumber"%string,(Some 4%N))] (TComposite [(Field (Some "height"%string) 4%N (Some "BlockNumber"%string) []); (Field (Some "index"%string) 4%N (Some "u32"%string) [])]) []).
Definition md_t207 : ty := (Ty ["pallet_bounties"%string; "pallet"%string; "Call"%string] [("T"%string,None); ("I"%string,None)] (TVariant [(Variant "propose_bounty"%string [(Field (Some "value"%string) 60%N (Some "BalanceOf<T, I>"%string) []); (Field (Some "description"%string) 13%N (Some "Vec<u8>"%string) [])] 0%N ["See [`Pallet::propose_bounty`]."%string]); (Variant "approve_bounty"%string [(Field (Some "bounty_id"%string) 79%N (Some "BountyIndex"%string) [])] 1%N ["See [`Pallet::approve_bounty`]."%string]); (Variant "propose_curator"%string [(Field (Some "bounty_id"%string) 79%N (Some "BountyIndex"%string) []); (Field (Some "curator"%string) 88%N (Some "AccountIdLookupOf<T>"%string) []); (Field (Some "fee"%string) 60%N (Some "BalanceOf<T, I>"%string) [])] 2%N ["See [`Pallet::propose_curator`]."%string]); (Variant "unassign_curator"%string [(Field (Some "bounty_id"%string) 79%N (Some "BountyIndex"%string) [])] 3%N ["See [`Pallet::unassign_curator`]."%string]); (Variant "accept_curator"%string [(Field (Some "bounty_id"%string) 79%N (Some "BountyIndex"%string) [])] 4%N ["See [`Pallet::accept_curator`]."%string]); (Variant "award_bounty"%string [(Field (Some "bounty_id"%string) 79%N (Some "BountyIndex"%string) []); (Field (Some "beneficiary"%string) 88%N (Some "AccountIdLookupOf<T>"%string) [])] 5%N ["See [`Pallet::award_bounty`]."%string]); (Variant "claim_bounty"%string [(Field (Some "bounty_id"%string) 79%N (Some "BountyIndex"%string) [])] 6%N ["See [`Pallet::claim_bounty`]."%string]); (Variant "close_bounty"%string [(Field (Some "bounty_id"%string) 79%N (Some "BountyIndex"%string) [])] 7%N ["See [`Pallet::close_bounty`]."%string]); (Variant "extend_bounty_expiry"%string [(Field (Some "bounty_id"%string) 79%N (Some "BountyIndex"%string) []); (Field (Some "remark"%string) 13%N (Some "Vec<u8>"%string) [])] 8%N ["See [`Pallet::extend_bounty_expiry`]."%string])]) ["Contains a variant per dispatchable extrinsic that this pallet has."%string]).
Definition md_t208 : ty := (Ty ["pallet_child_bounties"%string; "pallet"%string; "Call"%string] [("T"%string,None)] (TVariant [(Variant "add_child_bounty"%string [(Field (Some "parent_bounty_id"%string) 79%N (Some "BountyIndex"%string) []); (Field (Some "value"%string) 60%N (Some "BalanceOf<T>"%string) []); (Field (Some "description"%string) 13%N (Some "Vec<u8>"%string) [])] 0%N ["See [`Pallet::add_child_bounty`]."%string]); (Variant "propose_curator"%string [(Field (Some "parent_bounty_id"%string) 79%N (Some "BountyIndex"%string) []); (Field (Some "child_bounty_id"%string) 79%N (Some "BountyIndex"%string) []); (Field (Some "curator"%string) 88%N (Some "AccountIdLookupOf<T>"%string) []); (Field (Some "fee"%string) 60%N (Some "BalanceOf<T>"%string) [])] 1%N ["See [`Pallet::propose_curator`]."%string]); (Variant "accept_curator"%string [(Field (Some "parent_bounty_id"%string) 79%N (Some "BountyIndex"%string) []); (Field (Some "child_bounty_id"%string) 79%N (Some "BountyIndex"%string) [])] 2%N ["See [`Pallet::accept_curator`]."%string]); (Variant "unassign_curator"%string [(Field (Some "parent_bounty_id"%string) 79%N (Some "BountyIndex"%string) []); (Field (Some "child_bounty_id"%string) 79%N (Some "BountyIndex"%string) [])] 3%N ["See [`Pallet::unassign_curator`]."%string]); (Variant "award_child_bounty"%string [(Field (Some "parent_bounty_id"%string) 79%N (Some "BountyIndex"%string) []); (Field (Some "child_bounty_id"%string) 79%N (Some "BountyIndex"%string) []); (Field (Some "beneficiary"%string) 88%N (Some "AccountIdLookupOf<T>"%string) [])] 4%N ["See [`Pallet::award_child_bounty`]."%string]); (Variant "claim_child_bounty"%string [(Field (Some "parent_bounty_id"%string) 79%N (Some "BountyIndex"%string) []); (Field (Some "child_bounty_id"%string) 79%N (Some "BountyIndex"%string) [])] 5%N ["See [`Pallet::claim_child_bounty`]."%string]); (Variant "close_child_bounty"%string [(Field (Some "parent_bounty_id"%string) 79%N (Some "BountyIndex"%string) []); (Field (Some "child_bounty_id"%string) 79%N (Some "BountyIndex"%string) [])] 6%N ["See [`Pallet::close_child_bounty`]."%string])]) ["Contains a variant per dispatchable extrinsic that this pallet has."%string]).
Definition md_t209 : ty := (Ty ["pallet_election_provider_multi_phase"%string; "pallet"%string; "Call"%string] [("T"%string,None)] (TVariant [(Variant "submit_unsigned"%string [(Field (Some "raw_solution"%string) 210%N (Some "Box<RawSolution<SolutionOf<T::MinerConfig>>>"%string) []); (Field (Some "witness"%string) 263%N (Some "SolutionOrSnapshotSize"%string) [])] 0%N ["See [`Pallet::submit_unsigned`]."%string]); (Variant "set_minimum_untrusted_score"%string [(Field (Some "maybe_next_score"%string) 264%N (Some "Option<ElectionScore>"%string) [])] 1%N ["See [`Pallet::set_minimum_untrusted_score`]."%string]); (Variant "set_emergency_election_result"%string [(Field (Some "supports"%string) 265%N (Some "Supports<T::AccountId>"%string) [])] 2%N ["See [`Pallet::set_emergency_election_result`]."%string]); (Variant "submit"%string [(Field (Some "raw_solution"%string) 210%N (Some "Box<RawSolution<SolutionOf<T::MinerConfig>>>"%string) [])] 3%N ["See [`Pallet::submit`]."%string]); (Variant "governance_fallback"%string [(Field (Some "maybe_max_voters"%string) 270%N (Some "Option<u32>"%string) []); (Field (Some "maybe_max_targets"%string) 270%N (Some "Option<u32>"%string) [])] 4%N ["See [`Pallet::governance_fallback`]."%string])]) ["Contains a variant per dispatchable extrinsic that this pallet has."%string]).
Definition md_t210 : ty := (Ty ["pallet_election_provider_multi_phase"%string; "RawSolution"%string] [("S"%string,(Some 211%N))] (TComposite [(Field (Some "solution"%string) 211%N (Some "S"%string) []); (Field (Some "score"%string) 262%N (Some "ElectionScore"%string) []); (Field (Some "round"%string) 4%N (Some "u32"%string) [])]) []).
Definition md_t211 : ty := (Ty ["polkadot_runtime"%string; "NposCompactSolution16"%string] [] (TComposite [(Field (Some "votes1"%string) 212%N None []); (Field (Some "votes2"%string) 215%N None []); (Field (Some "votes3"%string) 220%N None []); (Field (Some "votes4"%string) 223%N None []); (Field (Some "votes5"%string) 226%N None []); (Field (Some "votes6"%string) 229%N None []); (Field (Some "votes7"%string) 232%N None []); (Field (Some "votes8"%string) 235%N None []); (Field (Some "votes9"%string) 238%N None []); (Field (Some "votes10"%string) 241%N None []); (Field (Some "votes11"%string) 244%N None []); (Field (Some "votes12"%string) 247%N None []); (Field (Some "votes13"%string) 250%N None []); (Field (Some "votes14"%string) 253%N None []); (Field (Some "votes15"%string) 256%N None []); (Field (Some "votes16"%string) 259%N None [])]) []).
Definition md_t212 : ty := (Ty [] [] (TSequence 213%N) []).
Definition md_t213 : ty := (Ty [] [] (TTuple [79%N; 214%N]) []).
Definition md_t214 : ty := (Ty [] [] (TCompact 66%N) []).
Definition md_t215 : ty := (Ty [] [] (TSequence 216%N) []).
Definition md_t216 : ty := (Ty [] [] (TTuple [79%N; 217%N; 214%N]) []).
Definition md_t217 : ty := (Ty [] [] (TTuple [214%N; 218%N]) []).
Definition md_t218 : ty := (Ty [] [] (TCompact 219%N) []).
Definition md_t219 : ty := (Ty ["sp_arithmetic"%string; "per_things"%string; "PerU16"%string] [] (TComposite [(Field None 66%N (Some "u16"%string) [])]) []).
Definition md_t220 : ty := (Ty [] [] (TSequence 221%N) []).
Definition md_t221 : ty := (Ty [] [] (TTuple [79%N; 222%N; 214%N]) []).
Definition md_t222 : ty := (Ty [] [] (TArray 2%N 217%N) []).
Definition md_t223 : ty := (Ty [] [] (TSequence 224%N) []).
Definition md_t224 : ty := (Ty [] [] (TTuple [79%N; 225%N; 214%N]) []).
Definition md_t225 : ty := (Ty [] [] (TArray 3%N 217%N) []).
Definition md_t226 : ty := (Ty [] [] (TSequence 227%N) []).
Definition md_t227 : ty := (Ty [] [] (TTuple [79%N; 228%N; 214%N]) []).
Definition md_t228 : ty := (Ty [] [] (TArray 4%N 217%N) []).
Definition md_t229 : ty := (Ty [] [] (TSequence 230%N) []).
Definition md_t230 : ty := (Ty [] [] (TTuple [79%N; 231%N; 214%N]) []).
Definition md_t231 : ty := (Ty [] [] (TArray 5%N 217%N) []).
Definition md_t232 : ty := (Ty [] [] (TSequence 233%N) []).
Definition md_t233 : ty := (Ty [] [] (TTuple [79%N; 234%N; 214%N]) []).
Definition md_t234 : ty := (Ty [] [] (TArray 6%N 217%N) []).
Definition md_t235 : ty := (Ty [] [] (TSequence 236%N) []).
Definition md_t236 : ty := (Ty [] [] (TTuple [79%N; 237%N; 214%N]) []).
Definition md_t237 : ty := (Ty [] [] (TArray 7%N 217%N) []).
Definition md_t238 : ty := (Ty [] [] (TSequence 239%N) []).
Definition md_t239 : ty := (Ty [] [] (TTuple [79%N; 240%N; 214%N]) []).
Definition md_t240 : ty := (Ty [] [] (TArray 8%N 217%N) []).
Definition md_t241 : ty := (Ty [] [] (TSequence 242%N) []).
Definition md_t242 : ty := (Ty [] [] (TTuple [79%N; 243%N; 214%N]) []).
Definition md_t243 : ty := (Ty [] [] (TArray 9%N 217%N) []).
Definition md_t244 : ty := (Ty [] [] (TSequence 245%N) []).
Definition md_t245 : ty := (Ty [] [] (TTuple [79%N; 246%N; 214%N]) []).
Definition md_t246 : ty := (Ty [] [] (TArray 10%N 217%N) []).
Definition md_t247 : ty := (Ty [] [] (TSequence 248%N) []).
Definition md_t248 : ty := (Ty [] [] (TTuple [79%N; 249%N; 214%N]) []).
Definition md_t249 : ty := (Ty [] [] (TArray 11%N 217%N) []).
Definition md_t250 : ty := (Ty [] [] (TSequence 251%N) []).
Definition md_t251 : ty := (Ty [] [] (TTuple [79%N; 252%N; 214%N]) []).
Definition md_t252 : ty := (Ty [] [] (TArray 12%N 217%N) []).
Definition md_t253 : ty := (Ty [] [] (TSequence 254%N) []).
Definition md_t254 : ty := (Ty [] [] (TTuple [79%N; 255%N; 214%N]) []).
Definition md_t255 : ty := (Ty [] [] (TArray 13%N 217%N) []).
Definition md_t256 : ty := (Ty [] [] (TSequence 257%N) []).
Definition md_t257 : ty := (Ty [] [] (TTuple [79%N; 258%N; 214%N]) []).
Definition md_t258 : ty := (Ty [] [] (TArray 14%N 217%N) []).
Definition md_t259 : ty := (Ty [] [] (TSequence 260%N) []).
Definition md_t260 : ty := (Ty [] [] (TTuple [79%N; 261%N; 214%N]) []).
Definition md_t261 : ty := (Ty [] [] (TArray 15%N 217%N) []).
Definition md_t262 : ty := (Ty ["sp_npos_elections"%string; "ElectionScore"%string] [] (TComposite [(Field (Some "minimal_stake"%string) 6%N (Some "ExtendedBalance"%string) []); (Field (Some "sum_stake"%string) 6%N (Some "ExtendedBalance"%string) []); (Field (Some "sum_stake_squared"%string) 6%N (Some "ExtendedBalance"%string) [])]) []).
Definition md_t263 : ty := (Ty ["pallet_election_provider_multi_phase"%string; "SolutionOrSnapshotSize"%string] [] (TComposite [(Field (Some "voters"%string) 79%N (Some "u32"%string) []); (Field (Some "targets"%string) 79%N (Some "u32"%string) [])]) []).
Definition md_t264 : ty := (Ty ["Option"%string] [("T"%string,(Some 262%N))] (TVariant [(Variant "None"%string [] 0%N []); (Variant "Some"%string [(Field None 262%N None [])] 1%N [])]) []).
Definition md_t265 : ty := (Ty [] [] (TSequence 266%N) []).
Definition md_t266 : ty := (Ty [] [] (TTuple [0%N; 267%N]) []).
Definition md_t267 : ty := (Ty ["sp_npos_elections"%string; "Support"%string] [("AccountId"%string,(Some 0%N))] (TComposite [(Field (Some "total"%string) 6%N (Some "ExtendedBalance"%string) []); (Field (Some "voters"%string) 268%N (Some "Vec<(AccountId, ExtendedBalance)>"%string) [])]) []).
Definition md_t268 : ty := (Ty [] [] (TSequence 269%N) []).
Definition md_t269 : ty := (Ty [] [] (TTuple [0%N; 6%N]) []).
Definition md_t270 : ty := (Ty ["Option"%string] [("T"%string,(Some 4%N))] (TVariant [(Variant "None"%string [] 0%N []); (Variant "Some"%string [(Field None 4%N None [])] 1%N [])]) []).
Definition md_t271 : ty := (Ty ["pallet_bags_list"%string; "pallet"%string; "Call"%string] [("T"%string,None); ("I"%string,None)] (TVariant [(Variant "rebag"%string [(Field (Some "dislocated"%string) 88%N (Some "AccountIdLookupOf<T>"%string) [])] 0%N ["See [`Pallet::rebag`]."%string]); (Variant "put_in_front_of"%string [(Field (Some "lighter"%string) 88%N (Some "AccountIdLookupOf<T>"%string) [])] 1%N ["See [`Pallet::put_in_front_of`]."%string]); (Variant "put_in_front_of_other"%string [(Field (Some "heavier"%string) 88%N (Some "AccountIdLookupOf<T>"%string) []); (Field (Some "lighter"%string) 88%N (Some "AccountIdLookupOf<T>"%string) [])] 2%N ["See [`Pallet::put_in_front_of_other`]."%string])]) ["Contains a variant per dispatchable extrinsic that this pallet has."%string]).
Definition md_t272 : ty := (Ty ["pallet_nomination_pools"%string; "pallet"%string; "Call"%string] [("T"%string,None)] (TVariant [(Variant "join"%string [(Field (Some "amount"%string) 60%N (Some "BalanceOf<T>"%string) []); (Field (Some "pool_id"%string) 4%N (Some "PoolId"%string) [])] 0%N ["See [`Pallet::join`]."%string]); (Variant "bond_extra"%string [(Field (Some "extra"%string) 273%N (Some "BondExtra<BalanceOf<T>>"%string) [])] 1%N ["See [`Pallet::bond_extra`]."%string]); (Variant "claim_payout"%string [] 2%N ["See [`Pallet::claim_payout`]."%string]); (Variant "unbond"%string [(Field (Some "member_account"%string) 88%N (Some "AccountIdLookupOf<T>"%string) []); (Field (Some "unbonding_points"%string) 60%N (Some "BalanceOf<T>"%string) [])] 3%N ["See [`Pallet::unbond`]."%string]); (Variant "pool_withdraw_unbonded"%string [(Field (Some "pool_id"%string) 4%N (Some "PoolId"%string) []); (Field (Some "num_slashing_spans"%string) 4%N (Some "u32"%string) [])] 4%N ["See [`Pallet::pool_withdraw_unbonded`]."%string]); (Variant "withdraw_unbonded"%string [(Field (Some "member_account"%string) 88%N (Some "AccountIdLookupOf<T>"%string) []); (Field (Some "num_slashing_spans"%string) 4%N (Some "u32"%string) [])] 5%N ["See [`Pallet::withdraw_unbonded`]."%string]); (Variant "create"%string [(Field (Some "amount"%string) 60%N (Some "BalanceOf<T>"%string) []); (Field (Some "root"%string) 88%N (Some "AccountIdLookupOf<T>"%string) []); (Field (Some "nominator"%string) 88%N (Some "AccountIdLookupOf<T>"%string) []); (Field (Some "bouncer"%string) 88%N (Some "AccountIdLookupOf<T>"%string) [])] 6%N ["See [`Pallet::create`]."%string]); (Variant "create_with_pool_id"%string [(Field (Some "amount"%string) 60%N (Some "BalanceOf<T>"%string) []); (Field (Some "root"%string) 88%N (Some "AccountIdLookupOf<T>"%string) []); (Field (Some "nominator"%string) 88%N (Some "AccountIdLookupOf<T>"%string) []); (Field (Some "bouncer"%string) 88%N (Some "AccountIdLookupOf<T>"%string) []); (Field (Some "pool_id"%string) 4%N (Some "PoolId"%string) [])] 7%N ["See [`Pallet::create_with_pool_id`]."%string]); (Variant "nominate"%string [(Field (Some "pool_id"%string) 4%N (Some "PoolId"%string) []); (Field (Some "validators"%string) 92%N (Some "Vec<T::AccountId>"%string) [])] 8%N ["See [`Pallet::nominate`]."%string]); (Variant "set_state"%string [(Field (Some "pool_id"%string) 4%N (Some "PoolId"%string) []); (Field (Some "state"%string) 274%N (Some "PoolState"%string) [])] 9%N ["See [`Pallet::set_state`]."%string]); (Variant "set_metadata"%string [(Field (Some "pool_id"%string) 4%N (Some "PoolId"%string) []); (Field (Some "metadata"%string) 13%N (Some "Vec<u8>"%string) [])] 10%N ["See [`Pallet::set_metadata`]."%string]); (Variant "set_configs"%string [(Field (Some "min_join_bond"%string) 275%N (Some "ConfigOp<BalanceOf<T>>"%string) []); (Field (Some "min_create_bond"%string) 275%N (Some "ConfigOp<BalanceOf<T>>"%string) []); (Field (Some "max_pools"%string) 276%N (Some "ConfigOp<u32>"%string) []); (Field (Some "max_members"%string) 276%N (Some "ConfigOp<u32>"%string) []); (Field (Some "max_members_per_pool"%string) 276%N (Some "ConfigOp<u32>"%string) []); (Field (Some "global_max_commission"%string) 277%N (Some "ConfigOp<Perbill>"%string) [])] 11%N ["See [`Pallet::set_configs`]."%string]); (Variant "update_roles"%string [(Field (Some "pool_id"%string) 4%N (Some "PoolId"%string) []); (Field (Some "new_root"%string) 278%N (Some "ConfigOp<T::AccountId>"%string) []); (Field (Some "new_nominator"%string) 278%N (Some "ConfigOp<T::AccountId>"%string) []); (Field (Some "new_bouncer"%string) 278%N (Some "ConfigOp<T::AccountId>"%string) [])] 12%N ["See [`Pallet::update_roles`]."%string]); (Variant "chill"%string [(Field (Some "pool_id"%string) 4%N (Some "PoolId"%string) [])] 13%N ["See [`Pallet::chill`]."%string]); (Variant "bond_extra_other"%string [(Field (Some "member"%string) 88%N (Some "AccountIdLookupOf<T>"%string) []); (Field (Some "extra"%string) 273%N (Some "BondExtra<BalanceOf<T>>"%string) [])] 14%N ["See [`Pallet::bond_extra_other`]."%string]); (Variant "set_claim_permission"%string [(Field (Some "permission"%string) 279%N (Some "ClaimPermission"%string) [])] 15%N ["See [`Pallet::set_claim_permission`]."%string]); (Variant "claim_payout_other"%string [(Field (Some "other"%string) 0%N (Some "T::AccountId"%string) [])] 16%N ["See [`Pallet::claim_payout_other`]."%string]); (Variant "set_commission"%string [(Field (Some "pool_id"%string) 4%N (Some "PoolId"%string) []); (Field (Some "new_commission"%string) 280%N (Some "Option<(Perbill, T::AccountId)>"%string) [])] 17%N ["See [`Pallet::set_commission`]."%string]); (Variant "set_commission_max"%string [(Field (Some "pool_id"%string) 4%N (Some "PoolId"%string) []); (Field (Some "max_commission"%string) 41%N (Some "Perbill"%string) [])] 18%N ["See [`Pallet::set_commission_max`]."%string]); (Variant "set_commission_change_rate"%string [(Field (Some "pool_id"%string) 4%N (Some "PoolId"%string) []); (Field (Some "change_rate"%string) 282%N (Some "CommissionChangeRate<BlockNumberFor<T>>"%string) [])] 19%N ["See [`Pallet::set_commission_change_rate`]."%string]); (Variant "claim_commission"%string [(Field (Some "pool_id"%string) 4%N (Some "PoolId"%string) [])] 20%N ["See [`Pallet::claim_commission`]."%string])]) ["Contains a variant per dispatchable extrinsic that this pallet has."%string]).
Definition md_t273 : ty := (Ty ["pallet_nomination_pools"%string; "BondExtra"%string] [("Balance"%string,(Some 6%N))] (TVariant [(Variant "FreeBalance"%string [(Field None 6%N (Some "Balance"%string) [])] 0%N []); (Variant "Rewards"%string [] 1%N [])]) []).
Definition md_t274 : ty := (Ty ["pallet_nomination_pools"%string; "PoolState"%string] [] (TVariant [(Variant "Open"%string [] 0%N []); (Variant "Blocked"%string [] 1%N []); (Variant "Destroying"%string [] 2%N [])]) []).
Definition md_t275 : ty := (Ty ["pallet_nomination_pools"%string; "ConfigOp"%string] [("T"%string,(Some 6%N))] (TVariant [(Variant "Noop"%string [] 0%N []); (Variant "Set"%string [(Field None 6%N (Some "T"%string) [])] 1%N []); (Variant "Remove"%string [] 2%N [])]) []).
Definition md_t276 : ty := (Ty ["pallet_nomination_pools"%string; "ConfigOp"%string] [("T"%string,(Some 4%N))] (TVariant [(Variant "Noop"%string [] 0%N []); (Variant "Set"%string [(Field None 4%N (Some "T"%string) [])] 1%N []); (Variant "Remove"%string [] 2%N [])]) []).
Definition md_t277 : ty := (Ty ["pallet_nomination_pools"%string; "ConfigOp"%string] [("T"%string,(Some 41%N))] (TVariant [(Variant "Noop"%string [] 0%N []); (Variant "Set"%string [(Field None 41%N (Some "T"%string) [])] 1%N []); (Variant "Remove"%string [] 2%N [])]) []).
Definition md_t278 : ty := (Ty ["pallet_nomination_pools"%string; "ConfigOp"%string] [("T"%string,(Some 0%N))] (TVariant [(Variant "Noop"%string [] 0%N []); (Variant "Set"%string [(Field None 0%N (Some "T"%string) [])] 1%N []); (Variant "Remove"%string [] 2%N [])]) []).
Definition md_t279 : ty := (Ty ["pallet_nomination_pools"%string; "ClaimPermission"%string] [] (TVariant [(Variant "Permissioned"%string [] 0%N []); (Variant "PermissionlessCompound"%string [] 1%N []); (Variant "PermissionlessWithdraw"%string [] 2%N []); (Variant "PermissionlessAll"%string [] 3%N [])]) []).
Definition md_t280 : ty := (Ty ["Option"%string] [("T"%string,(Some 281%N))] (TVariant [(Variant "None"%string [] 0%N []); (Variant "Some"%string [(Field None 281%N None [])] 1%N [])]) []).
Definition md_t281 : ty := (Ty [] [] (TTuple [41%N; 0%N]) []).
Definition md_t282 : ty := (Ty ["pallet_nomination_pools"%string; "CommissionChangeRate"%string] [("BlockNumber"%string,(Some 4%N))] (TComposite [(Field (Some "max_increase"%string) 41%N (Some "Perbill"%string) []); (Field (Some "min_delay"%string) 4%N (Some "BlockNumber"%string) [])]) []).
Definition md_t283 : ty := (Ty ["pallet_fast_unstake"%string; "pallet"%string; "Call"%string] [("T"%string,None)] (TVariant [(Variant "register_fast_unstake"%string [] 0%N ["See [`Pallet::register_fast_unstake`]."%string]); (Variant "deregister"%string [] 1%N ["See [`Pallet::deregister`]."%string]); (Variant "control"%string [(Field (Some "eras_to_check"%string) 4%N (Some "EraIndex"%string) [])] 2%N ["See [`Pallet::control`]."%string])]) ["Contains a variant per dispatchable extrinsic that this pallet has."%string]).
Definition md_t284 : ty := (Ty ["polkadot_runtime_parachains"%string; "configuration"%string; "pallet"%string; "Call"%string] [("T"%string,None)] (TVariant [(Variant "set_validation_upgrade_cooldown"%string [(Field (Some "new"%string) 4%N (Some "BlockNumberFor<T>"%string) [])] 0%N ["See [`Pallet::set_validation_upgrade_cooldown`]."%string]); (Variant "set_validation_upgrade_delay"%string [(Field (Some "new"%string) 4%N (Some "BlockNumberFor<T>"%string) [])] 1%N ["See [`Pallet::set_validation_upgrade_delay`]."%string]); (Variant "set_code_retention_period"%string [(Field (Some "new"%string) 4%N (Some "BlockNumberFor<T>"%string) [])] 2%N ["See [`Pallet::set_code_retention_period`]."%string]); (Variant "set_max_code_size"%string [(Field (Some "new"%string) 4%N (Some "u32"%string) [])] 3%N ["See [`Pallet::set_max_code_size`]."%string]); (Variant "set_max_pov_size"%string [(Field (Some "new"%string) 4%N (Some "u32"%string) [])] 4%N ["See [`Pallet::set_max_pov_size`]."%string]); (Variant "set_max_head_data_size"%string [(Field (Some "new"%string) 4%N (Some "u32"%string) [])] 5%N ["See [`Pallet::set_max_head_data_size`]."%string]); (Variant "set_on_demand_cores"%string [(Field (Some "new"%string) 4%N (Some "u32"%string) [])] 6%N ["See [`Pallet::set_on_demand_cores`]."%string]); (Variant "set_on_demand_retries"%string [(Field (Some "new"%string) 4%N (Some "u32"%string) [])] 7%N ["See [`Pallet::set_on_demand_retries`]."%string]); (Variant "set_group_rotation_frequency"%string [(Field (Some "new"%string) 4%N (Some "BlockNumberFor<T>"%string) [])] 8%N ["See [`Pallet::set_group_rotation_frequency`]."%string]); (Variant "set_paras_availability_period"%string [(Field (Some "new"%string) 4%N (Some "BlockNumberFor<T>"%string) [])] 9%N ["See [`Pallet::set_paras_availability_period`]."%string]); (Variant "set_scheduling_lookahead"%string [(Field (Some "new"%string) 4%N (Some "u32"%string) [])] 11%N ["See [`Pallet::set_scheduling_lookahead`]."%string]); (Variant "set_max_validators_per_core"%string [(Field (Some "new"%string) 270%N (Some "Option<u32>"%string) [])] 12%N ["See [`Pallet::set_max_validators_per_core`]."%string]); (Variant "set_max_validators"%string [(Field (Some "new"%string) 270%N (Some "Option<u32>"%string) [])] 13%N ["See [`Pallet::set_max_validators`]."%string]); (Variant "set_dispute_period"%string [(Field (Some "new"%string) 4%N (Some "SessionIndex"%string) [])] 14%N ["See [`Pallet::set_dispute_period`]."%string]); (Variant "set_dispute_post_conclusion_acceptance_period"%string [(Field (Some "new"%string) 4%N (Some "BlockNumberFor<T>"%string) [])] 15%N ["See [`Pallet::set_dispute_post_conclusion_acceptance_period`]."%string]); (Variant "set_no_show_slots"%string [(Field (Some "new"%string) 4%N (Some "u32"%string) [])] 18%N ["See [`Pallet::set_no_show_slots`]."%string]); (Variant "set_n_delay_tranches"%string [(Field (Some "new"%string) 4%N (Some "u32"%string) [])] 19%N ["See [`Pallet::set_n_delay_tranches`]."%string]); (Variant "set_zeroth_delay_tranche_width"%string [(Field (Some "new"%string) 4%N (Some "u32"%string) [])] 20%N ["See [`Pallet::set_zeroth_delay_tranche_width`]."%string]); (Variant "set_needed_approvals"%string [(Field (Some "new"%string) 4%N (Some "u32"%string) [])] 21%N ["See [`Pallet::set_needed_approvals`]."%string]); (Variant "set_relay_vrf_modulo_samples"%string [(Field (Some "new"%string) 4%N (Some "u32"%string) [])] 22%N ["See [`Pallet::set_relay_vrf_modulo_samples`]."%string]); (Variant "set_max_upward_queue_count"%string [(Field (Some "new"%string) 4%N (Some "u32"%string) [])] 23%N ["See [`Pallet::set_max_upward_queue_count`]."%string]); (Variant "set_max_upward_queue_size"%string [(Field (Some "new"%string) 4%N (Some "u32"%string) [])] 24%N ["See [`Pallet::set_max_upward_queue_size`]."%string]); (Variant "set_max_downward_message_size"%string [(Field (Some "new"%string) 4%N (Some "u32"%string) [])] 25%N ["See [`Pallet::set_max_downward_message_size`]."%string]); (Variant "set_max_upward_message_size"%string [(Field (Some "new"%string) 4%N (Some "u32"%string) [])] 27%N ["See [`Pallet::set_max_upward_message_size`]."%string]); (Variant "set_max_upward_message_num_per_candidate"%string [(Field (Some "new"%string) 4%N (Some "u32"%string) [])] 28%N ["See [`Pallet::set_max_upward_message_num_per_candidate`]."%string]); (Variant "set_hrmp_open_request_ttl"%string [(Field (Some "new"%string) 4%N (Some "u32"%string) [])] 29%N ["See [`Pallet::set_hrmp_open_request_ttl`]."%string]); (Variant "set_hrmp_sender_deposit"%string [(Field (Some "new"%string) 6%N (Some "Balance"%string) [])] 30%N ["See [`Pallet::set_hrmp_sender_deposit`]."%string]); (Variant "set_hrmp_recipient_deposit"%string [(Field (Some "new"%string) 6%N (Some "Balance"%string) [])] 31%N ["See [`Pallet::set_hrmp_recipient_deposit`]."%string]); (Variant "set_hrmp_channel_max_capacity"%string [(Field (Some "new"%string) 4%N (Some "u32"%string) [])] 32%N ["See [`Pallet::set_hrmp_channel_max_capacity`]."%string]); (Variant "set_hrmp_channel_max_total_size"%string [(Field (Some "new"%string) 4%N (Some "u32"%string) [])] 33%N ["See [`Pallet::set_hrmp_channel_max_total_size`]."%string]); (Variant "set_hrmp_max_parachain_inbound_channels"%string [(Field (Some "new"%string) 4%N (Some "u32"%string) [])] 34%N ["See [`Pallet::set_hrmp_max_parachain_inbound_channels`]."%string]); (Variant "set_hrmp_channel_max_message_size"%string [(Field (Some "new"%string) 4%N (Some "u32"%string) [])] 36%N ["See [`Pallet::set_hrmp_channel_max_message_size`]."%string]); (Variant "set_hrmp_max_parachain_outbound_channels"%string [(Field (Some "new"%string) 4%N (Some "u32"%string) [])] 37%N ["See [`Pallet::set_hrmp_max_parachain_outbound_channels`]."%string]); (Variant "set_hrmp_max_message_num_per_candidate"%string [(Field (Some "new"%string) 4%N (Some "u32"%string) [])] 39%N ["See [`Pallet::set_hrmp_max_message_num_per_candidate`]."%string]); (Variant "set_pvf_voting_ttl"%string [(Field (Some "new"%string) 4%N (Some "SessionIndex"%string) [])] 42%N ["See [`Pallet::set_pvf_voting_ttl`]."%string]); (Variant "set_minimum_validation_upgrade_delay"%string [(Field (Some "new"%string) 4%N (Some "BlockNumberFor<T>"%string) [])] 43%N ["See [`Pallet::set_minimum_validation_upgrade_delay`]."%string]); (Variant "set_bypass_consistency_check"%string [(Field (Some "new"%string) 44%N (Some "bool"%string) [])] 44%N ["See [`Pallet::set_bypass_consistency_check`]."%string]); (Variant "set_async_backing_params"%string [(Field (Some "new"%string) 285%N (Some "AsyncBackingParams"%string) [])] 45%N ["See [`Pallet::set_async_backing_params`]."%string]); (Variant "set_executor_params"%string [(Field (Some "new"%string) 286%N (Some "ExecutorParams"%string) [])] 46%N ["See [`Pallet::set_executor_params`]."%string]); (Variant "set_on_demand_base_fee"%string [(Field (Some "new"%string) 6%N (Some "Balance"%string) [])] 47%N ["See [`Pallet::set_on_demand_base_fee`]."%string]); (Variant "set_on_demand_fee_variability"%string [(Field (Some "new"%string) 41%N (Some "Perbill"%string) [])] 48%N ["See [`Pallet::set_on_demand_fee_variability`]."%string]); (Variant "set_on_demand_queue_max_size"%string [(Field (Some "new"%string) 4%N (Some "u32"%string) [])] 49%N ["See [`Pallet::set_on_demand_queue_max_size`]."%string]); (Variant "set_on_demand_target_queue_utilization"%string [(Field (Some "new"%string) 41%N (Some "Perbill"%string) [])] 50%N ["See [`Pallet::set_on_demand_target_queue_utilization`]."%string]); (Variant "set_on_demand_ttl"%string [(Field (Some "new"%string) 4%N (Some "BlockNumberFor<T>"%string) [])] 51%N ["See [`Pallet::set_on_demand_ttl`]."%string]); (Variant "set_minimum_backing_votes"%string [(Field (Some "new"%string) 4%N (Some "u32"%string) [])] 52%N ["See [`Pallet::set_minimum_backing_votes`]."%string])]) ["Contains a variant per dispatchable extrinsic that this pallet has."%string]).
Definition md_t285 : ty := (Ty ["polkadot_primitives"%string; "vstaging"%string; "AsyncBackingParams"%string] [] (TComposite [(Field (Some "max_candidate_depth"%string) 4%N (Some "u32"%string) []); (Field (Some "allowed_ancestry_len"%string) 4%N (Some "u32"%string) [])]) []).
Definition md_t286 : ty := (Ty ["polkadot_primitives"%string; "v5"%string; "executor_params"%string; "ExecutorParams"%string] [] (TComposite [(Field None 287%N (Some "Vec<ExecutorParam>"%string) [])]) []).
Definition md_t287 : ty := (Ty [] [] (TSequence 288%N) []).
Definition md_t288 : ty := (Ty ["polkadot_primitives"%string; "v5"%string; "executor_params"%string; "ExecutorParam"%string] [] (TVariant [(Variant "MaxMemoryPages"%string [(Field None 4%N (Some "u32"%string) [])] 1%N []); (Variant "StackLogicalMax"%string [(Field None 4%N (Some "u32"%string) [])] 2%N []); (Variant "StackNativeMax"%string [(Field None 4%N (Some "u32"%string) [])] 3%N []); (Variant "PrecheckingMaxMemory"%string [(Field None 11%N (Some "u64"%string) [])] 4%N []); (Variant "PvfPrepTimeout"%string [(Field None 289%N (Some "PvfPrepTimeoutKind"%string) []); (Field None 11%N (Some "u64"%string) [])] 5%N []); (Variant "PvfExecTimeout"%string [(Field None 290%N (Some "PvfExecTimeoutKind"%string) []); (Field None 11%N (Some "u64"%string) [])] 6%N []); (Variant "WasmExtBulkMemory"%string [] 7%N [])]) []).
Definition md_t289 : ty := (Ty ["polkadot_primitives"%string; "v5"%string; "PvfPrepTimeoutKind"%string] [] (TVariant [(Variant "Precheck"%string [] 0%N []); (Variant "Lenient"%string [] 1%N [])]) []).
Definition md_t290 : ty := (Ty ["polkadot_primitives"%string; "v5"%string; "PvfExecTimeoutKind"%string] [] (TVariant [(Variant "Backing"%string [] 0%N []); (Variant "Approval"%string [] 1%N [])]) []).
Definition md_t291 : ty := (Ty ["polkadot_runtime_parachains"%string; "shared"%string; "pallet"%string; "Call"%string] [("T"%string,None)] (TVariant []) ["Contains a variant per dispatchable extrinsic that this pallet has."%string]).
Definition md_t292 : ty := (Ty ["polkadot_runtime_parachains"%string; "inclusion"%string; "pallet"%string; "Call"%string] [("T"%string,None)] (TVariant []) ["Contains a variant per dispatchable extrinsic that this pallet has."%string]).
Definition md_t293 : ty := (Ty ["polkadot_runtime_parachains"%string; "paras_inherent"%string; "pallet"%string; "Call"%string] [("T"%string,None)] (TVariant [(Variant "enter"%string [(Field (Some "data"%string) 294%N (Some "ParachainsInherentData<HeaderFor<T>>"%string) [])] 0%N ["See [`Pallet::enter`]."%string])]) ["Contains a variant per dispatchable extrinsic that this pallet has."%string]).
Definition md_t294 : ty := (Ty ["polkadot_primitives"%string; "v5"%string; "InherentData"%string] [("HDR"%string,(Some 78%N))] (TComposite [(Field (Some "bitfields"%string) 295%N (Some "UncheckedSignedAvailabilityBitfields"%string) []); (Field (Some "backed_candidates"%string) 302%N (Some "Vec<BackedCandidate<HDR::Hash>>"%string) []); (Field (Some "disputes"%string) 319%N (Some "MultiDisputeStatementSet"%string) []); (Field (Some "parent_header"%string) 78%N (Some "HDR"%string) [])]) []).
Definition md_t295 : ty := (Ty [] [] (TSequence 296%N) []).
Definition md_t296 : ty := (Ty ["polkadot_primitives"%string; "v5"%string; "signed"%string; "UncheckedSigned"%string] [("Payload"%string,(Some 297%N)); ("RealPayload"%string,(Some 297%N))] (TComposite [(Field (Some "payload"%string) 297%N (Some "Payload"%string) []); (Field (Some "validator_index"%string) 300%N (Some "ValidatorIndex"%string) []); (Field (Some "signature"%string) 301%N (Some "ValidatorSignature"%string) [])]) []).
Definition md_t297 : ty := (Ty ["polkadot_primitives"%string; "v5"%string; "AvailabilityBitfield"%string] [] (TComposite [(Field None 298%N (Some "BitVec<u8, bitvec::order::Lsb0>"%string) [])]) []).
Definition md_t298 : ty := (Ty [] [] (TBitSequence 2%N 299%N) []).
Definition md_t299 : ty := (Ty ["bitvec"%string; "order"%string; "Lsb0"%string] [] (TComposite []) []).
Definition md_t300 : ty := (Ty ["polkadot_primitives"%string; "v5"%string; "ValidatorIndex"%string] [] (TComposite [(Field None 4%N (Some "u32"%string) [])]) []).
Definition md_t301 : ty := (Ty ["polkadot_primitives"%string; "v5"%string; "validator_app"%string; "Signature"%string] [] (TComposite [(Field None 122%N (Some "sr25519::Signature"%string) [])]) []).
Definition md_t302 : ty := (Ty [] [] (TSequence 303%N) []).
Definition md_t303 : ty := (Ty ["polkadot_primitives"%string; "v5"%string; "BackedCandidate"%string] [("H"%string,(Some 12%N))] (TComposite [(Field (Some "candidate"%string) 304%N (Some "CommittedCandidateReceipt<H>"%string) []); (Field (Some "validity_votes"%string) 317%N (Some "Vec<ValidityAttestation>"%string) []); (Field (Some "validator_indices"%string) 298%N (Some "BitVec<u8, bitvec::order::Lsb0>"%string) [])]) []).
Definition md_t304 : ty := (Ty ["polkadot_primitives"%string; "v5"%string; "CommittedCandidateReceipt"%string] [("H"%string,(Some 12%N))] (TComposite [(Field (Some "descriptor"%string) 305%N (Some "CandidateDescriptor<H>"%string) []); (Field (Some "commitments"%string) 309%N (Some "CandidateCommitments"%string) [])]) []).
Definition md_t305 : ty := (Ty ["polkadot_primitives"%string; "v5"%string; "CandidateDescriptor"%string] [("H"%string,(Some 12%N))] (TComposite [(Field (Some "para_id"%string) 134%N (Some "Id"%string) []); (Field (Some "relay_parent"%string) 12%N (Some "H"%string) []); (Field (Some "collator"%string) 306%N (Some "CollatorId"%string) []); (Field (Some "persisted_validation_data_hash"%string) 12%N (Some "Hash"%string) []); (Field (Some "pov_hash"%string) 12%N (Some "Hash"%string) []); (Field (Some "erasure_root"%string) 12%N (Some "Hash"%string) []); (Field (Some "signature"%string) 307%N (Some "CollatorSignature"%string) []); (Field (Some "para_head"%string) 12%N (Some "Hash"%string) []); (Field (Some "validation_code_hash"%string) 308%N (Some "ValidationCodeHash"%string) [])]) []).
Definition md_t306 : ty := (Ty ["polkadot_primitives"%string; "v5"%string; "collator_app"%string; "Public"%string] [] (TComposite [(Field None 56%N (Some "sr25519::Public"%string) [])]) []).
Definition md_t307 : ty := (Ty ["polkadot_primitives"%string; "v5"%string; "collator_app"%string; "Signature"%string] [] (TComposite [(Field None 122%N (Some "sr25519::Signature"%string) [])]) []).
Definition md_t308 : ty := (Ty ["polkadot_parachain_primitives"%string; "primitives"%string; "ValidationCodeHash"%string] [] (TComposite [(Field None 12%N (Some "Hash"%string) [])]) []).
Definition md_t309 : ty := (Ty ["polkadot_primitives"%string; "v5"%string; "CandidateCommitments"%string] [("N"%string,(Some 4%N))] (TComposite [(Field (Some "upward_messages"%string) 310%N (Some "UpwardMessages"%string) []); (Field (Some "horizontal_messages"%string) 311%N (Some "HorizontalMessages"%string) []); (Field (Some "new_validation_code"%string) 314%N (Some "Option<ValidationCode>"%string) []); (Field (Some "head_data"%string) 316%N (Some "HeadData"%string) []); (Field (Some "processed_downward_messages"%string) 4%N (Some "u32"%string) []); (Field (Some "hrmp_watermark"%string) 4%N (Some "N"%string) [])]) []).
Definition md_t310 : ty := (Ty ["bounded_collections"%string; "bounded_vec"%string; "BoundedVec"%string] [("T"%string,(Some 13%N)); ("S"%string,None)] (TComposite [(Field None 72%N (Some "Vec<T>"%string) [])]) []).
Definition md_t311 : ty := (Ty ["bounded_collections"%string; "bounded_vec"%string; "BoundedVec"%string] [("T"%string,(Some 312%N)); ("S"%string,None)] (TComposite [(Field None 313%N (Some "Vec<T>"%string) [])]) []).
Definition md_t312 : ty := (Ty ["polkadot_core_primitives"%string; "OutboundHrmpMessage"%string] [("Id"%string,(Some 134%N))] (TComposite [(Field (Some "recipient"%string) 134%N (Some "Id"%string) []); (Field (Some "data"%string) 13%N (Some "sp_std::vec::Vec<u8>"%string) [])]) []).
Definition md_t313 : ty := (Ty [] [] (TSequence 312%N) []).
Definition md_t314 : ty := (Ty ["Option"%string] [("T"%string,(Some 315%N))] (TVariant [(Variant "None"%string [] 0%N []); (Variant "Some"%string [(Field None 315%N None [])] 1%N [])]) []).
Definition md_t315 : ty := (Ty ["polkadot_parachain_primitives"%string; "primitives"%string; "ValidationCode"%string] [] (TComposite [(Field None 13%N (Some "Vec<u8>"%string) [])]) []).
Definition md_t316 : ty := (Ty ["polkadot_parachain_primitives"%string; "primitives"%string; "HeadData"%string] [] (TComposite [(Field None 13%N (Some "Vec<u8>"%string) [])]) []).
Definition md_t317 : ty := (Ty [] [] (TSequence 318%N) []).
Definition md_t318 : ty := (Ty ["polkadot_primitives"%string; "v5"%string; "ValidityAttestation"%string] [] (TVariant [(Variant "Implicit"%string [(Field None 301%N (Some "ValidatorSignature"%string) [])] 1%N []); (Variant "Explicit"%string [(Field None 301%N (Some "ValidatorSignature"%string) [])] 2%N [])]) []).
Definition md_t319 : ty := (Ty [] [] (TSequence 320%N) []).
Definition md_t320 : ty := (Ty ["polkadot_primitives"%string; "v5"%string; "DisputeStatementSet"%string] [] (TComposite [(Field (Some "candidate_hash"%string) 321%N (Some "CandidateHash"%string) []); (Field (Some "session"%string) 4%N (Some "SessionIndex"%string) []); (Field (Some "statements"%string) 322%N (Some "Vec<(DisputeStatement, ValidatorIndex, ValidatorSignature)>"%string) [])]) []).
Definition md_t321 : ty := (Ty ["polkadot_core_primitives"%string; "CandidateHash"%string] [] (TComposite [(Field None 12%N (Some "Hash"%string) [])]) []).
Definition md_t322 : ty := (Ty [] [] (TSequence 323%N) []).
Definition md_t323 : ty := (Ty [] [] (TTuple [324%N; 300%N; 301%N]) []).
Definition md_t324 : ty := (Ty ["polkadot_primitives"%string; "v5"%string; "DisputeStatement"%string] [] (TVariant [(Variant "Valid"%string [(Field None 325%N (Some "ValidDisputeStatementKind"%string) [])] 0%N []); (Variant "Invalid"%string [(Field None 326%N (Some "InvalidDisputeStatementKind"%string) [])] 1%N [])]) []).
Definition md_t325 : ty := (Ty ["polkadot_primitives"%string; "v5"%string; "ValidDisputeStatementKind"%string] [] (TVariant [(Variant "Explicit"%string [] 0%N []); (Variant "BackingSeconded"%string [(Field None 12%N (Some "Hash"%string) [])] 1%N []); (Variant "BackingValid"%string [(Field None 12%N (Some "Hash"%string) [])] 2%N []); (Variant "ApprovalChecking"%string [] 3%N [])]) []).
Definition md_t326 : ty := (Ty ["polkadot_primitives"%string; "v5"%string; "InvalidDisputeStatementKind"%string] [] (TVariant [(Variant "Explicit"%string [] 0%N [])]) []).
Definition md_t327 : ty := (Ty ["polkadot_runtime_parachains"%string; "paras"%string; "pallet"%string; "Call"%string] [("T"%string,None)] (TVariant [(Variant "force_set_current_code"%string [(Field (Some "para"%string) 134%N (Some "ParaId"%string) []); (Field (Some "new_code"%string) 315%N (Some "ValidationCode"%string) [])] 0%N ["See [`Pallet::force_set_current_code`]."%string]); (Variant "force_set_current_head"%string [(Field (Some "para"%string) 134%N (Some "ParaId"%string) []); (Field (Some "new_head"%string) 316%N (Some "HeadData"%string) [])] 1%N ["See [`Pallet::force_set_current_head`]."%string]); (Variant "force_schedule_code_upgrade"%string [(Field (Some "para"%string) 134%N (Some "ParaId"%string) []); (Field (Some "new_code"%string) 315%N (Some "ValidationCode"%string) []); (Field (Some "relay_parent_number"%string) 4%N (Some "BlockNumberFor<T>"%string) [])] 2%N ["See [`Pallet::force_schedule_code_upgrade`]."%string]); (Variant "force_note_new_head"%string [(Field (Some "para"%string) 134%N (Some "ParaId"%string) []); (Field (Some "new_head"%string) 316%N (Some "HeadData"%string) [])] 3%N ["See [`Pallet::force_note_new_head`]."%string]); (Variant "force_queue_action"%string [(Field (Some "para"%string) 134%N (Some "ParaId"%string) [])] 4%N ["See [`Pallet::force_queue_action`]."%string]); (Variant "add_trusted_validation_code"%string [(Field (Some "validation_code"%string) 315%N (Some "ValidationCode"%string) [])] 5%N ["See [`Pallet::add_trusted_validation_code`]."%string]); (Variant "poke_unused_validation_code"%string [(Field (Some "validation_code_hash"%string) 308%N (Some "ValidationCodeHash"%string) [])] 6%N ["See [`Pallet::poke_unused_validation_code`]."%string]); (Variant "include_pvf_check_statement"%string [(Field (Some "stmt"%string) 328%N (Some "PvfCheckStatement"%string) []); (Field (Some "signature"%string) 301%N (Some "ValidatorSignature"%string) [])] 7%N ["See [`Pallet::include_pvf_check_statement`]."%string]); (Variant "force_set_most_recent_context"%string [(Field (Some "para"%string) 134%N (Some "ParaId"%string) []); (Field (Some "context"%string) 4%N (Some "BlockNumberFor<T>"%string) [])] 8%N ["See [`Pallet::force_set_most_recent_context`]."%string])]) ["Contains a variant per dispatchable extrinsic that this pallet has."%string]).
Definition md_t328 : ty := (Ty ["polkadot_primitives"%string; "v5"%string; "PvfCheckStatement"%string] [] (TComposite [(Field (Some "accept"%string) 44%N (Some "bool"%string) []); (Field (Some "subject"%string) 308%N (Some "ValidationCodeHash"%string) []); (Field (Some "session_index"%string) 4%N (Some "SessionIndex"%string) []); (Field (Some "validator_index"%string) 300%N (Some "ValidatorIndex"%string) [])]) []).
Definition md_t329 : ty := (Ty ["polkadot_runtime_parachains"%string; "initializer"%string; "pallet"%string; "Call"%string] [("T"%string,None)] (TVariant [(Variant "force_approve"%string [(Field (Some "up_to"%string) 4%N (Some "BlockNumber"%string) [])] 0%N ["See [`Pallet::force_approve`]."%string])]) ["Contains a variant per dispatchable extrinsic that this pallet has."%string]).
Definition md_t330 : ty := (Ty ["polkadot_runtime_parachains"%string; "hrmp"%string; "pallet"%string; "Call"%string] [("T"%string,None)] (TVariant [(Variant "hrmp_init_open_channel"%string [(Field (Some "recipient"%string) 134%N (Some "ParaId"%string) []); (Field (Some "proposed_max_capacity"%string) 4%N (Some "u32"%string) []); (Field (Some "proposed_max_message_size"%string) 4%N (Some "u32"%string) [])] 0%N ["See [`Pallet::hrmp_init_open_channel`]."%string]); (Variant "hrmp_accept_open_channel"%string [(Field (Some "sender"%string) 134%N (Some "ParaId"%string) [])] 1%N ["See [`Pallet::hrmp_accept_open_channel`]."%string]); (Variant "hrmp_close_channel"%string [(Field (Some "channel_id"%string) 331%N (Some "HrmpChannelId"%string) [])] 2%N ["See [`Pallet::hrmp_close_channel`]."%string]); (Variant "force_clean_hrmp"%string [(Field (Some "para"%string) 134%N (Some "ParaId"%string) []); (Field (Some "inbound"%string) 4%N (Some "u32"%string) []); (Field (Some "outbound"%string) 4%N (Some "u32"%string) [])] 3%N ["See [`Pallet::force_clean_hrmp`]."%string]); (Variant "force_process_hrmp_open"%string [(Field (Some "channels"%string) 4%N (Some "u32"%string) [])] 4%N ["See [`Pallet::force_process_hrmp_open`]."%string]); (Variant "force_process_hrmp_close"%string [(Field (Some "channels"%string) 4%N (Some "u32"%string) [])] 5%N ["See [`Pallet::force_process_hrmp_close`]."%string]); (Variant "hrmp_cancel_open_request"%string [(Field (Some "channel_id"%string) 331%N (Some "HrmpChannelId"%string) []); (Field (Some "open_requests"%string) 4%N (Some "u32"%string) [])] 6%N ["See [`Pallet::hrmp_cancel_open_request`]."%string]); (Variant "force_open_hrmp_channel"%string [(Field (Some "sender"%string) 134%N (Some "ParaId"%string) []); (Field (Some "recipient"%string) 134%N (Some "ParaId"%string) []); (Field (Some "max_capacity"%string) 4%N (Some "u32"%string) []); (Field (Some "max_message_size"%string) 4%N (Some "u32"%string) [])] 7%N ["See [`Pallet::force_open_hrmp_channel`]."%string])]) ["Contains a variant per dispatchable extrinsic that this pallet has."%string]).
Definition md_t331 : ty := (Ty ["polkadot_parachain_primitives"%string; "primitives"%string; "HrmpChannelId"%string] [] (TComposite [(Field (Some "sender"%string) 134%N (Some "Id"%string) []); (Field (Some "recipient"%string) 134%N (Some "Id"%string) [])]) []).
Definition md_t332 : ty := (Ty ["polkadot_runtime_parachains"%string; "disputes"%string; "pallet"%string; "Call"%string] [("T"%string,None)] (TVariant [(Variant "force_unfreeze"%string [] 0%N ["See [`Pallet::force_unfreeze`]."%string])]) ["Contains a variant per dispatchable extrinsic that this pallet has."%string]).
Definition md_t333 : ty := (Ty ["polkadot_runtime_parachains"%string; "disputes"%string; "slashing"%string; "pallet"%string; "Call"%string] [("T"%string,None)] (TVariant [(Variant "report_dispute_lost_unsigned"%string [(Field (Some "dispute_proof"%string) 334%N (Some "Box<DisputeProof>"%string) []); (Field (Some "key_owner_proof"%string) 82%N (Some "T::KeyOwnerProof"%string) [])] 0%N ["See [`Pallet::report_dispute_lost_unsigned`]."%string])]) ["Contains a variant per dispatchable extrinsic that this pallet has."%string]).
Definition md_t334 : ty := (Ty ["polkadot_primitives"%string; "v5"%string; "slashing"%string; "DisputeProof"%string] [] (TComposite [(Field (Some "time_slot"%string) 335%N (Some "DisputesTimeSlot"%string) []); (Field (Some "kind"%string) 336%N (Some "SlashingOffenceKind"%string) []); (Field (Some "validator_index"%string) 300%N (Some "ValidatorIndex"%string) []); (Field (Some "validator_id"%string) 104%N (Some "ValidatorId"%string) [])]) []).
Definition md_t335 : ty := (Ty ["polkadot_primitives"%string; "v5"%string; "slashing"%string; "DisputesTimeSlot"%string] [] (TComposite [(Field (Some "session_index"%string) 4%N (Some "SessionIndex"%string) []); (Field (Some "candidate_hash"%string) 321%N (Some "CandidateHash"%string) [])]) []).
Definition md_t336 : ty := (Ty ["polkadot_primitives"%string; "v5"%string; "slashing"%string; "SlashingOffenceKind"%string] [] (TVariant [(Variant "ForInvalid"%string [] 0%N []); (Variant "AgainstValid"%string [] 1%N [])]) []).
Definition md_t337 : ty := (Ty ["polkadot_runtime_common"%string; "paras_registrar"%string; "pallet"%string; "Call"%string] [("T"%string,None)] (TVariant [(Variant "register"%string [(Field (Some "id"%string) 134%N (Some "ParaId"%string) []); (Field (Some "genesis_head"%string) 316%N (Some "HeadData"%string) []); (Field (Some "validation_code"%string) 315%N (Some "ValidationCode"%string) [])] 0%N ["See [`Pallet::register`]."%string]); (Variant "force_register"%string [(Field (Some "who"%string) 0%N (Some "T::AccountId"%string) []); (Field (Some "deposit"%string) 6%N (Some "BalanceOf<T>"%string) []); (Field (Some "id"%string) 134%N (Some "ParaId"%string) []); (Field (Some "genesis_head"%string) 316%N (Some "HeadData"%string) []); (Field (Some "validation_code"%string) 315%N (Some "ValidationCode"%string) [])] 1%N ["See [`Pallet::force_register`]."%string]); (Variant "deregister"%string [(Field (Some "id"%string) 134%N (Some "ParaId"%string) [])] 2%N ["See [`Pallet::deregister`]."%string]); (Variant "swap"%string [(Field (Some "id"%string) 134%N (Some "ParaId"%string) []); (Field (Some "other"%string) 134%N (Some "ParaId"%string) [])] 3%N ["See [`Pallet::swap`]."%string]); (Variant "remove_lock"%string [(Field (Some "para"%string) 134%N (Some "ParaId"%string) [])] 4%N ["See [`Pallet::remove_lock`]."%string]); (Variant "reserve"%string [] 5%N ["See [`Pallet::reserve`]."%string]); (Variant "add_lock"%string [(Field (Some "para"%string) 134%N (Some "ParaId"%string) [])] 6%N ["See [`Pallet::add_lock`]."%string]); (Variant "schedule_code_upgrade"%string [(Field (Some "para"%string) 134%N (Some "ParaId"%string) []); (Field (Some "new_code"%string) 315%N (Some "ValidationCode"%string) [])] 7%N ["See [`Pallet::schedule_code_upgrade`]."%string]); (Variant "set_current_head"%string [(Field (Some "para"%string) 134%N (Some "ParaId"%string) []); (Field (Some "new_head"%string) 316%N (Some "HeadData"%string) [])] 8%N ["See [`Pallet::set_current_head`]."%string])]) ["Contains a variant per dispatchable extrinsic that this pallet has."%string]).
Definition md_t338 : ty := (Ty ["polkadot_runtime_common"%string; "slots"%string; "pallet"%string; "Call"%string] [("T"%string,None)] (TVariant [(Variant "force_lease"%string [(Field (Some "para"%string) 134%N (Some "ParaId"%string) []); (Field (Some "leaser"%string) 0%N (Some "T::AccountId"%string) []); (Field (Some "amount"%string) 6%N (Some "BalanceOf<T>"%string) []); (Field (Some "period_begin"%string) 4%N (Some "LeasePeriodOf<T>"%string) []); (Field (Some "period_count"%string) 4%N (Some "LeasePeriodOf<T>"%string) [])] 0%N ["See [`Pallet::force_lease`]."%string]); (Variant "clear_all_leases"%string [(Field (Some "para"%string) 134%N (Some "ParaId"%string) [])] 1%N ["See [`Pallet::clear_all_leases`]."%string]); (Variant "trigger_onboard"%string [(Field (Some "para"%string) 134%N (Some "ParaId"%string) [])] 2%N ["See [`Pallet::trigger_onboard`]."%string])]) ["Contains a variant per dispatchable extrinsic that this pallet has."%string]).
Definition md_t339 : ty := (Ty ["polkadot_runtime_common"%string; "auctions"%string; "pallet"%string; "Call"%string] [("T"%string,None)] (TVariant [(Variant "new_auction"%string [(Field (Some "duration"%string) 79%N (Some "BlockNumberFor<T>"%string) []); (Field (Some "lease_period_index"%string) 79%N (Some "LeasePeriodOf<T>"%string) [])] 0%N ["See [`Pallet::new_auction`]."%string]); (Variant "bid"%string [(Field (Some "para"%string) 340%N (Some "ParaId"%string) []); (Field (Some "auction_index"%string) 79%N (Some "AuctionIndex"%string) []); (Field (Some "first_slot"%string) 79%N (Some "LeasePeriodOf<T>"%string) []); (Field (Some "last_slot"%string) 79%N (Some "LeasePeriodOf<T>"%string) []); (Field (Some "amount"%string) 60%N (Some "BalanceOf<T>"%string) [])] 1%N ["See [`Pallet::bid`]."%string]); (Variant "cancel_auction"%string [] 2%N ["See [`Pallet::cancel_auction`]."%string])]) ["Contains a variant per dispatchable extrinsic that this pallet has."%string]).
Definition md_t340 : ty := (Ty [] [] (TCompact 134%N) []).
Definition md_t341 : ty := (Ty ["polkadot_runtime_common"%string; "crowdloan"%string; "pallet"%string; "Call"%string] [("T"%string,None)] (TVariant [(Variant "create"%string [(Field (Some "index"%string) 340%N (Some "ParaId"%string) []); (Field (Some "cap"%string) 60%N (Some "BalanceOf<T>"%string) []); (Field (Some "first_period"%string) 79%N (Some "LeasePeriodOf<T>"%string) []); (Field (Some "last_period"%string) 79%N (Some "LeasePeriodOf<T>"%string) []); (Field (Some "end"%string) 79%N (Some "BlockNumberFor<T>"%string) []); (Field (Some "verifier"%string) 342%N (Some "Option<MultiSigner>"%string) [])] 0%N ["See [`Pallet::create`]."%string]); (Variant "contribute"%string [(Field (Some "index"%string) 340%N (Some "ParaId"%string) []); (Field (Some "value"%string) 60%N (Some "BalanceOf<T>"%string) []); (Field (Some "signature"%string) 346%N (Some "Option<MultiSignature>"%string) [])] 1%N ["See [`Pallet::contribute`]."%string]); (Variant "withdraw"%string [(Field (Some "who"%string) 0%N (Some "T::AccountId"%string) []); (Field (Some "index"%string) 340%N (Some "ParaId"%string) [])] 2%N ["See [`Pallet::withdraw`]."%string]); (Variant "refund"%string [(Field (Some "index"%string) 340%N (Some "ParaId"%string) [])] 3%N ["See [`Pallet::refund`]."%string]); (Variant "dissolve"%string [(Field (Some "index"%string) 340%N (Some "ParaId"%string) [])] 4%N ["See [`Pallet::dissolve`]."%string]); (Variant "edit"%string [(Field (Some "index"%string) 340%N (Some "ParaId"%string) []); (Field (Some "cap"%string) 60%N (Some "BalanceOf<T>"%string) []); (Field (Some "first_period"%string) 79%N (Some "LeasePeriodOf<T>"%string) []); (Field (Some "last_period"%string) 79%N (Some "LeasePeriodOf<T>"%string) []); (Field (Some "end"%string) 79%N (Some "BlockNumberFor<T>"%string) []); (Field (Some "verifier"%string) 342%N (Some "Option<MultiSigner>"%string) [])] 5%N ["See [`Pallet::edit`]."%string]); (Variant "add_memo"%string [(Field (Some "index"%string) 134%N (Some "ParaId"%string) []); (Field (Some "memo"%string) 13%N (Some "Vec<u8>"%string) [])] 6%N ["See [`Pallet::add_memo`]."%string]); (Variant "poke"%string [(Field (Some "index"%string) 134%N (Some "ParaId"%string) [])] 7%N ["See [`Pallet::poke`]."%string]); (Variant "contribute_all"%string [(Field (Some "index"%string) 340%N (Some "ParaId"%string) []); (Field (Some "signature"%string) 346%N (Some "Option<MultiSignature>"%string) [])] 8%N ["See [`Pallet::contribute_all`]."%string])]) ["Contains a variant per dispatchable extrinsic that this pallet has."%string]).
Definition md_t342 : ty := (Ty ["Option"%string] [("T"%string,(Some 343%N))] (TVariant [(Variant "None"%string [] 0%N []); (Variant "Some"%string [(Field None 343%N None [])] 1%N [])]) []).
Definition md_t343 : ty := (Ty ["sp_runtime"%string; "MultiSigner"%string] [] (TVariant [(Variant "Ed25519"%string [(Field None 53%N (Some "ed25519::Public"%string) [])] 0%N []); (Variant "Sr25519"%string [(Field None 56%N (Some "sr25519::Public"%string) [])] 1%N []); (Variant "Ecdsa"%string [(Field None 344%N (Some "ecdsa::Public"%string) [])] 2%N [])]) []).
Definition md_t344 : ty := (Ty ["sp_core"%string; "ecdsa"%string; "Public"%string] [] (TComposite [(Field None 345%N (Some "[u8; 33]"%string) [])]) []).
Definition md_t345 : ty := (Ty [] [] (TArray 33%N 2%N) []).
Definition md_t346 : ty := (Ty ["Option"%string] [("T"%string,(Some 347%N))] (TVariant [(Variant "None"%string [] 0%N []); (Variant "Some"%string [(Field None 347%N None [])] 1%N [])]) []).
Definition md_t347 : ty := (Ty ["sp_runtime"%string; "MultiSignature"%string] [] (TVariant [(Variant "Ed25519"%string [(Field None 113%N (Some "ed25519::Signature"%string) [])] 0%N []); (Variant "Sr25519"%string [(Field None 122%N (Some "sr25519::Signature"%string) [])] 1%N []); (Variant "Ecdsa"%string [(Field None 348%N (Some "ecdsa::Signature"%string) [])] 2%N [])]) []).
Definition md_t348 : ty := (Ty ["sp_core"%string; "ecdsa"%string; "Signature"%string] [] (TComposite [(Field None 149%N (Some "[u8; 65]"%string) [])]) []).
Definition md_t349 : ty := (Ty ["pallet_xcm"%string; "pallet"%string; "Call"%string] [("T"%string,None)] (TVariant [(Variant "send"%string [(Field (Some "dest"%string) 350%N (Some "Box<VersionedMultiLocation>"%string) []); (Field (Some "message"%string) 358%N (Some "Box<VersionedXcm<()>>"%string) [])] 0%N ["See [`Pallet::send`]."%string]); (Variant "teleport_assets"%string [(Field (Some "dest"%string) 350%N (Some "Box<VersionedMultiLocation>"%string) []); (Field (Some "beneficiary"%string) 350%N (Some "Box<VersionedMultiLocation>"%string) []); (Field (Some "assets"%string) 403%N (Some "Box<VersionedMultiAssets>"%string) []); (Field (Some "fee_asset_item"%string) 4%N (Some "u32"%string) [])] 1%N ["See [`Pallet::teleport_assets`]."%string]); (Variant "reserve_transfer_assets"%string [(Field (Some "dest"%string) 350%N (Some "Box<VersionedMultiLocation>"%string) []); (Field (Some "beneficiary"%string) 350%N (Some "Box<VersionedMultiLocation>"%string) []); (Field (Some "assets"%string) 403%N (Some "Box<VersionedMultiAssets>"%string) []); (Field (Some "fee_asset_item"%string) 4%N (Some "u32"%string) [])] 2%N ["See [`Pallet::reserve_transfer_assets`]."%string]); (Variant "execute"%string [(Field (Some "message"%string) 404%N (Some "Box<VersionedXcm<<T as SysConfig>::RuntimeCall>>"%string) []); (Field (Some "max_weight"%string) 9%N (Some "Weight"%string) [])] 3%N ["See [`Pallet::execute`]."%string]); (Variant "force_xcm_version"%string [(Field (Some "location"%string) 136%N (Some "Box<MultiLocation>"%string) []); (Field (Some "version"%string) 4%N (Some "XcmVersion"%string) [])] 4%N ["See [`Pallet::force_xcm_version`]."%string]); (Variant "force_default_xcm_version"%string [(Field (Some "maybe_xcm_version"%string) 270%N (Some "Option<XcmVersion>"%string) [])] 5%N ["See [`Pallet::force_default_xcm_version`]."%string]); (Variant "force_subscribe_version_notify"%string [(Field (Some "location"%string) 350%N (Some "Box<VersionedMultiLocation>"%string) [])] 6%N ["See [`Pallet::force_subscribe_version_notify`]."%string]); (Variant "force_unsubscribe_version_notify"%string [(Field (Some "location"%string) 350%N (Some "Box<VersionedMultiLocation>"%string) [])] 7%N ["See [`Pallet::force_unsubscribe_version_notify`]."%string]); (Variant "limited_reserve_transfer_assets"%string [(Field (Some "dest"%string) 350%N (Some "Box<VersionedMultiLocation>"%string) []); (Field (Some "beneficiary"%string) 350%N (Some "Box<VersionedMultiLocation>"%string) []); (Field (Some "assets"%string) 403%N (Some "Box<VersionedMultiAssets>"%string) []); (Field (Some "fee_asset_item"%string) 4%N (Some "u32"%string) []); (Field (Some "weight_limit"%string) 402%N (Some "WeightLimit"%string) [])] 8%N ["See [`Pallet::limited_reserve_transfer_assets`]."%string]); (Variant "limited_teleport_assets"%string [(Field (Some "dest"%string) 350%N (Some "Box<VersionedMultiLocation>"%string) []); (Field (Some "beneficiary"%string) 350%N (Some "Box<VersionedMultiLocation>"%string) []); (Field (Some "assets"%string) 403%N (Some "Box<VersionedMultiAssets>"%string) []); (Field (Some "fee_asset_item"%string) 4%N (Some "u32"%string) []); (Field (Some "weight_limit"%string) 402%N (Some "WeightLimit"%string) [])] 9%N ["See [`Pallet::limited_teleport_assets`]."%string]); (Variant "force_suspension"%string [(Field (Some "suspended"%string) 44%N (Some "bool"%string) [])] 10%N ["See [`Pallet::force_suspension`]."%string])]) ["Contains a variant per dispatchable extrinsic that this pallet has."%string]).
Definition md_t350 : ty := (Ty ["xcm"%string; "VersionedMultiLocation"%string] [] (TVariant [(Variant "V2"%string [(Field None 351%N (Some "v2::MultiLocation"%string) [])] 1%N []); (Variant "V3"%string [(Field None 136%N (Some "v3::MultiLocation"%string) [])] 3%N [])]) []).
Definition md_t351 : ty := (Ty ["xcm"%string; "v2"%string; "multilocation"%string; "MultiLocation"%string] [] (TComposite [(Field (Some "parents"%string) 2%N (Some "u8"%string) []); (Field (Some "interior"%string) 352%N (Some "Junctions"%string) [])]) []).
Definition md_t352 : ty := (Ty ["xcm"%string; "v2"%string; "multilocation"%string; "Junctions"%string] [] (TVariant [(Variant "Here"%string [] 0%N []); (Variant "X1"%string [(Field None 353%N (Some "Junction"%string) [])] 1%N []); (Variant "X2"%string [(Field None 353%N (Some "Junction"%string) []); (Field None 353%N (Some "Junction"%string) [])] 2%N []); (Variant "X3"%string [(Field None 353%N (Some "Junction"%string) []); (Field None 353%N (Some "Junction"%string) []); (Field None 353%N (Some "Junction"%string) [])] 3%N []); (Variant "X4"%string [(Field None 353%N (Some "Junction"%string) []); (Field None 353%N (Some "Junction"%string) []); (Field None 353%N (Some "Junction"%string) []); (Field None 353%N (Some "Junction"%string) [])] 4%N []); (Variant "X5"%string [(Field None 353%N (Some "Junction"%string) []); (Field None 353%N (Some "Junction"%string) []); (Field None 353%N (Some "Junction"%string) []); (Field None 353%N (Some "Junction"%string) []); (Field None 353%N (Some "Junction"%string) [])] 5%N []); (Variant "X6"%string [(Field None 353%N (Some "Junction"%string) []); (Field None 353%N (Some "Junction"%string) []); (Field None 353%N (Some "Junction"%string) []); (Field None 353%N (Some "Junction"%string) []); (Field None 353%N (Some "Junction"%string) []); (Field None 353%N (Some "Junction"%string) [])] 6%N []); (Variant "X7"%string [(Field None 353%N (Some "Junction"%string) []); (Field None 353%N (Some "Junction"%string) []); (Field None 353%N (Some "Junction"%string) []); (Field None 353%N (Some "Junction"%string) []); (Field None 353%N (Some "Junction"%string) []); (Field None 353%N (Some "Junction"%string) []); (Field None 353%N (Some "Junction"%string) [])] 7%N []); (Variant "X8"%string [(Field None 353%N (Some "Junction"%string) []); (Field None 353%N (Some "Junction"%string) []); (Field None 353%N (Some "Junction"%string) []); (Field None 353%N (Some "Junction"%string) []); (Field None 353%N (Some "Junction"%string) []); (Field None 353%N (Some "Junction"%string) []); (Field None 353%N (Some "Junction"%string) []); (Field None 353%N (Some "Junction"%string) [])] 8%N [])]) []).
Definition md_t353 : ty := (Ty ["xcm"%string; "v2"%string; "junction"%string; "Junction"%string] [] (TVariant [(Variant "Parachain"%string [(Field None 79%N (Some "u32"%string) [])] 0%N []); (Variant "AccountId32"%string [(Field (Some "network"%string) 354%N (Some "NetworkId"%string) []); (Field (Some "id"%string) 1%N (Some "[u8; 32]"%string) [])] 1%N []); (Variant "AccountIndex64"%string [(Field (Some "network"%string) 354%N (Some "NetworkId"%string) []); (Field (Some "index"%string) 10%N (Some "u64"%string) [])] 2%N []); (Variant "AccountKey20"%string [(Field (Some "network"%string) 354%N (Some "NetworkId"%string) []); (Field (Some "key"%string) 90%N (Some "[u8; 20]"%string) [])] 3%N []); (Variant "PalletInstance"%string [(Field None 2%N (Some "u8"%string) [])] 4%N []); (Variant "GeneralIndex"%string [(Field None 60%N (Some "u128"%string) [])] 5%N []); (Variant "GeneralKey"%string [(Field None 355%N (Some "WeakBoundedVec<u8, ConstU32<32>>"%string) [])] 6%N []); (Variant "OnlyChild"%string [] 7%N []); (Variant "Plurality"%string [(Field (Some "id"%string) 356%N (Some "BodyId"%string) []); (Field (Some "part"%string) 357%N (Some "BodyPart"%string) [])] 8%N [])]) []).
Definition md_t354 : ty := (Ty ["xcm"%string; "v2"%string; "NetworkId"%string] [] (TVariant [(Variant "Any"%string [] 0%N []); (Variant "Named"%string [(Field None 355%N (Some "WeakBoundedVec<u8, ConstU32<32>>"%string) [])] 1%N []); (Variant "Polkadot"%string [] 2%N []); (Variant "Kusama"%string [] 3%N [])]) []).
Definition md_t355 : ty := (Ty ["bounded_collections"%string; "weak_bounded_vec"%string; "WeakBoundedVec"%string] [("T"%string,(Some 2%N)); ("S"%string,None)] (TComposite [(Field None 13%N (Some "Vec<T>"%string) [])]) []).
Definition md_t356 : ty := (Ty ["xcm"%string; "v2"%string; "BodyId"%string] [] (TVariant [(Variant "Unit"%string [] 0%N []); (Variant "Named"%string [(Field None 355%N (Some "WeakBoundedVec<u8, ConstU32<32>>"%string) [])] 1%N []); (Variant "Index"%string [(Field None 79%N (Some "u32"%string) [])] 2%N []); (Variant "Executive"%string [] 3%N []); (Variant "Technical"%string [] 4%N []); (Variant "Legislative"%string [] 5%N []); (Variant "Judicial"%string [] 6%N []); (Variant "Defense"%string [] 7%N []); (Variant "Administration"%string [] 8%N []); (Variant "Treasury"%string [] 9%N [])]) []).
Definition md_t357 : ty := (Ty ["xcm"%string; "v2"%string; "BodyPart"%string] [] (TVariant [(Variant "Voice"%string [] 0%N []); (Variant "Members"%string [(Field (Some "count"%string) 79%N (Some "u32"%string) [])] 1%N []); (Variant "Fraction"%string [(Field (Some "nom"%string) 79%N (Some "u32"%string) []); (Field (Some "denom"%string) 79%N (Some "u32"%string) [])] 2%N []); (Variant "AtLeastProportion"%string [(Field (Some "nom"%string) 79%N (Some "u32"%string) []); (Field (Some "denom"%string) 79%N (Some "u32"%string) [])] 3%N []); (Variant "MoreThanProportion"%string [(Field (Some "nom"%string) 79%N (Some "u32"%string) []); (Field (Some "denom"%string) 79%N (Some "u32"%string) [])] 4%N [])]) []).
Definition md_t358 : ty := (Ty ["xcm"%string; "VersionedXcm"%string] [("RuntimeCall"%string,None)] (TVariant [(Variant "V2"%string [(Field None 359%N (Some "v2::Xcm<RuntimeCall>"%string) [])] 2%N []); (Variant "V3"%string [(Field None 378%N (Some "v3::Xcm<RuntimeCall>"%string) [])] 3%N [])]) []).
Definition md_t359 : ty := (Ty ["xcm"%string; "v2"%string; "Xcm"%string] [("RuntimeCall"%string,None)] (TComposite [(Field None 360%N (Some "Vec<Instruction<RuntimeCall>>"%string) [])]) []).
Definition md_t360 : ty := (Ty [] [] (TSequence 361%N) []).
Definition md_t361 : ty := (Ty ["xcm"%string; "v2"%string; "Instruction"%string] [("RuntimeCall"%string,None)] (TVariant [(Variant "WithdrawAsset"%string [(Field None 362%N (Some "MultiAssets"%string) [])] 0%N []); (Variant "ReserveAssetDeposited"%string [(Field None 362%N (Some "MultiAssets"%string) [])] 1%N []); (Variant "ReceiveTeleportedAsset"%string [(Field None 362%N (Some "MultiAssets"%string) [])] 2%N []); (Variant "QueryResponse"%string [(Field (Some "query_id"%string) 10%N (Some "QueryId"%string) []); (Field (Some "response"%string) 368%N (Some "Response"%string) []); (Field (Some "max_weight"%string) 10%N (Some "u64"%string) [])] 3%N []); (Variant "TransferAsset"%string [(Field (Some "assets"%string) 362%N (Some "MultiAssets"%string) []); (Field (Some "beneficiary"%string) 351%N (Some "MultiLocation"%string) [])] 4%N []); (Variant "TransferReserveAsset"%string [(Field (Some "assets"%string) 362%N (Some "MultiAssets"%string) []); (Field (Some "dest"%string) 351%N (Some "MultiLocation"%string) []); (Field (Some "xcm"%string) 359%N (Some "Xcm<()>"%string) [])] 5%N []); (Variant "Transact"%string [(Field (Some "origin_type"%string) 372%N (Some "OriginKind"%string) []); (Field (Some "require_weight_at_most"%string) 10%N (Some "u64"%string) []); (Field (Some "call"%string) 373%N (Some "DoubleEncoded<RuntimeCall>"%string) [])] 6%N []); (Variant "HrmpNewChannelOpenRequest"%string [(Field (Some "sender"%string) 79%N (Some "u32"%string) []); (Field (Some "max_message_size"%string) 79%N (Some "u32"%string) []); (Field (Some "max_capacity"%string) 79%N (Some "u32"%string) [])] 7%N []); (Variant "HrmpChannelAccepted"%string [(Field (Some "recipient"%string) 79%N (Some "u32"%string) [])] 8%N []); (Variant "HrmpChannelClosing"%string [(Field (Some "initiator"%string) 79%N (Some "u32"%string) []); (Field (Some "sender"%string) 79%N (Some "u32"%string) []); (Field (Some "recipient"%string) 79%N (Some "u32"%string) [])] 9%N []); (Variant "ClearOrigin"%string [] 10%N []); (Variant "DescendOrigin"%string [(Field None 352%N (Some "InteriorMultiLocation"%string) [])] 11%N []); (Variant "ReportError"%string [(Field (Some "query_id"%string) 10%N (Some "QueryId"%string) []); (Field (Some "dest"%string) 351%N (Some "MultiLocation"%string) []); (Field (Some "max_response_weight"%string) 10%N (Some "u64"%string) [])] 12%N []); (Variant "DepositAsset"%string [(Field (Some "assets"%string) 374%N (Some "MultiAssetFilter"%string) []); (Field (Some "max_assets"%string) 79%N (Some "u32"%string) []); (Field (Some "beneficiary"%string) 351%N (Some "MultiLocation"%string) [])] 13%N []); (Variant "DepositReserveAsset"%string [(Field (Some "assets"%string) 374%N (Some "MultiAssetFilter"%string) []); (Field (Some "max_assets"%string) 79%N (Some "u32"%string) []); (Field (Some "dest"%string) 351%N (Some "MultiLocation"%string) []); (Field (Some "xcm"%string) 359%N (Some "Xcm<()>"%string) [])] 14%N []); (Variant "ExchangeAsset"%string [(Field (Some "give"%string) 374%N (Some "MultiAssetFilter"%string) []); (Field (Some "receive"%string) 362%N (Some "MultiAssets"%string) [])] 15%N []); (Variant "InitiateReserveWithdraw"%string [(Field (Some "assets"%string) 374%N (Some "MultiAssetFilter"%string) []); (Field (Some "reserve"%string) 351%N (Some "MultiLocation"%string) []); (Field (Some "xcm"%string) 359%N (Some "Xcm<()>"%string) [])] 16%N []); (Variant "InitiateTeleport"%string [(Field (Some "assets"%string) 374%N (Some "MultiAssetFilter"%string) []); (Field (Some "dest"%string) 351%N (Some "MultiLocation"%string) []); (Field (Some "xcm"%string) 359%N (Some "Xcm<()>"%string) [])] 17%N []); (Variant "QueryHolding"%string [(Field (Some "query_id"%string) 10%N (Some "QueryId"%string) []); (Field (Some "dest"%string) 351%N (Some "MultiLocation"%string) []); (Field (Some "assets"%string) 374%N (Some "MultiAssetFilter"%string) []); (Field (Some "max_response_weight"%string) 10%N (Some "u64"%string) [])] 18%N []); (Variant "BuyExecution"%string [(Field (Some "fees"%string) 364%N (Some "MultiAsset"%string) []); (Field (Some "weight_limit"%string) 377%N (Some "WeightLimit"%string) [])] 19%N []); (Variant "RefundSurplus"%string [] 20%N []); (Variant "SetErrorHandler"%string [(Field None 359%N (Some "Xcm<RuntimeCall>"%string) [])] 21%N []); (Variant "SetAppendix"%string [(Field None 359%N (Some "Xcm<RuntimeCall>"%string) [])] 22%N []); (Variant "ClearError"%string [] 23%N []); (Variant "ClaimAsset"%string [(Field (Some "assets"%string) 362%N (Some "MultiAssets"%string) []); (Field (Some "ticket"%string) 351%N (Some "MultiLocation"%string) [])] 24%N []); (Variant "Trap"%string [(Field None 10%N (Some "u64"%string) [])] 25%N []); (Variant "SubscribeVersion"%string [(Field (Some "query_id"%string) 10%N (Some "QueryId"%string) []); (Field (Some "max_response_weight"%string) 10%N (Some "u64"%string) [])] 26%N []); (Variant "UnsubscribeVersion"%string [] 27%N [])]) []).
Definition md_t362 : ty := (Ty ["xcm"%string; "v2"%string; "multiasset"%string; "MultiAssets"%string] [] (TComposite [(Field None 363%N (Some "Vec<MultiAsset>"%string) [])]) []).
Definition md_t363 : ty := (Ty [] [] (TSequence 364%N) []).
Definition md_t364 : ty := (Ty ["xcm"%string; "v2"%string; "multiasset"%string; "MultiAsset"%string] [] (TComposite [(Field (Some "id"%string) 365%N (Some "AssetId"%string) []); (Field (Some "fun"%string) 366%N (Some "Fungibility"%string) [])]) []).
Definition md_t365 : ty := (Ty ["xcm"%string; "v2"%string; "multiasset"%string; "AssetId"%string] [] (TVariant [(Variant "Concrete"%string [(Field None 351%N (Some "MultiLocation"%string) [])] 0%N []); (Variant "Abstract"%string [(Field None 13%N (Some "Vec<u8>"%string) [])] 1%N [])]) []).
Definition md_t366 : ty := (Ty ["xcm"%string; "v2"%string; "multiasset"%string; "Fungibility"%string] [] (TVariant [(Variant "Fungible"%string [(Field None 60%N (Some "u128"%string) [])] 0%N []); (Variant "NonFungible"%string [(Field None 367%N (Some "AssetInstance"%string) [])] 1%N [])]) []).
Definition md_t367 : ty := (Ty ["xcm"%string; "v2"%string; "multiasset"%string; "AssetInstance"%string] [] (TVariant [(Variant "Undefined"%string [] 0%N []); (Variant "Index"%string [(Field None 60%N (Some "u128"%string) [])] 1%N []); (Variant "Array4"%string [(Field None 17%N (Some "[u8; 4]"%string) [])] 2%N []); (Variant "Array8"%string [(Field None 172%N (Some "[u8; 8]"%string) [])] 3%N []); (Variant "Array16"%string [(Field None 47%N (Some "[u8; 16]"%string) [])] 4%N []); (Variant "Array32"%string [(Field None 1%N (Some "[u8; 32]"%string) [])] 5%N []); (Variant "Blob"%string [(Field None 13%N (Some "Vec<u8>"%string) [])] 6%N [])]) []).
Definition md_t368 : ty := (Ty ["xcm"%string; "v2"%string; "Response"%string] [] (TVariant [(Variant "Null"%string [] 0%N []); (Variant "Assets"%string [(Field None 362%N (Some "MultiAssets"%string) [])] 1%N []); (Variant "ExecutionResult"%string [(Field None 369%N (Some "Option<(u32, Error)>"%string) [])] 2%N []); (Variant "Version"%string [(Field None 4%N (Some "super::Version"%string) [])] 3%N [])]) []).
Definition md_t369 : ty := (Ty ["Option"%string] [("T"%string,(Some 370%N))] (TVariant [(Variant "None"%string [] 0%N []); (Variant "Some"%string [(Field None 370%N None [])] 1%N [])]) []).
Definition md_t370 : ty := (Ty [] [] (TTuple [4%N; 371%N]) []).
Definition md_t371 : ty := (Ty ["xcm"%string; "v2"%string; "traits"%string; "Error"%string] [] (TVariant [(Variant "Overflow"%string [] 0%N []); (Variant "Unimplemented"%string [] 1%N []); (Variant "UntrustedReserveLocation"%string [] 2%N []); (Variant "UntrustedTeleportLocation"%string [] 3%N []); (Variant "MultiLocationFull"%string [] 4%N []); (Variant "MultiLocationNotInvertible"%string [] 5%N []); (Variant "BadOrigin"%string [] 6%N []); (Variant "InvalidLocation"%string [] 7%N []); (Variant "AssetNotFound"%string [] 8%N []); (Variant "FailedToTransactAsset"%string [] 9%N []); (Variant "NotWithdrawable"%string [] 10%N []); (Variant "LocationCannotHold"%string [] 11%N []); (Variant "ExceedsMaxMessageSize"%string [] 12%N []); (Variant "DestinationUnsupported"%string [] 13%N []); (Variant "Transport"%string [] 14%N []); (Variant "Unroutable"%string [] 15%N []); (Variant "UnknownClaim"%string [] 16%N []); (Variant "FailedToDecode"%string [] 17%N []); (Variant "MaxWeightInvalid"%string [] 18%N []); (Variant "NotHoldingFees"%string [] 19%N []); (Variant "TooExpensive"%string [] 20%N []); (Variant "Trap"%string [(Field None 11%N (Some "u64"%string) [])] 21%N []); (Variant "UnhandledXcmVersion"%string [] 22%N []); (Variant "WeightLimitReached"%string [(Field None 11%N (Some "Weight"%string) [])] 23%N []); (Variant "Barrier"%string [] 24%N []); (Variant "WeightNotComputable"%string [] 25%N [])]) []).
Definition md_t372 : ty := (Ty ["xcm"%string; "v2"%string; "OriginKind"%string] [] (TVariant [(Variant "Native"%string [] 0%N []); (Variant "SovereignAccount"%string [] 1%N []); (Variant "Superuser"%string [] 2%N []); (Variant "Xcm"%string [] 3%N [])]) []).
Definition md_t373 : ty := (Ty ["xcm"%string; "double_encoded"%string; "DoubleEncoded"%string] [("T"%string,None)] (TComposite [(Field (Some "encoded"%string) 13%N (Some "Vec<u8>"%string) [])]) []).
Definition md_t374 : ty := (Ty ["xcm"%string; "v2"%string; "multiasset"%string; "MultiAssetFilter"%string] [] (TVariant [(Variant "Definite"%string [(Field None 362%N (Some "MultiAssets"%string) [])] 0%N []); (Variant "Wild"%string [(Field None 375%N (Some "WildMultiAsset"%string) [])] 1%N [])]) []).
Definition md_t375 : ty := (Ty ["xcm"%string; "v2"%string; "multiasset"%string; "WildMultiAsset"%string] [] (TVariant [(Variant "All"%string [] 0%N []); (Variant "AllOf"%string [(Field (Some "id"%string) 365%N (Some "AssetId"%string) []); (Field (Some "fun"%string) 376%N (Some "WildFungibility"%string) [])] 1%N [])]) []).
Definition md_t376 : ty := (Ty ["xcm"%string; "v2"%string; "multiasset"%string; "WildFungibility"%string] [] (TVariant [(Variant "Fungible"%string [] 0%N []); (Variant "NonFungible"%string [] 1%N [])]) []).
Definition md_t377 : ty := (Ty ["xcm"%string; "v2"%string; "WeightLimit"%string] [] (TVariant [(Variant "Unlimited"%string [] 0%N []); (Variant "Limited"%string [(Field None 10%N (Some "u64"%string) [])] 1%N [])]) []).
Definition md_t378 : ty := (Ty ["xcm"%string; "v3"%string; "Xcm"%string] [("Call"%string,None)] (TComposite [(Field None 379%N (Some "Vec<Instruction<Call>>"%string) [])]) []).
Definition md_t379 : ty := (Ty [] [] (TSequence 380%N) []).
Definition md_t380 : ty := (Ty ["xcm"%string; "v3"%string; "Instruction"%string] [("Call"%string,None)] (TVariant [(Variant "WithdrawAsset"%string [(Field None 381%N (Some "MultiAssets"%string) [])] 0%N []); (Variant "ReserveAssetDeposited"%string [(Field None 381%N (Some "MultiAssets"%string) [])] 1%N []); (Variant "ReceiveTeleportedAsset"%string [(Field None 381%N (Some "MultiAssets"%string) [])] 2%N []); (Variant "QueryResponse"%string [(Field (Some "query_id"%string) 10%N (Some "QueryId"%string) []); (Field (Some "response"%string) 387%N (Some "Response"%string) []); (Field (Some "max_weight"%string) 9%N (Some "Weight"%string) []); (Field (Some "querier"%string) 397%N (Some "Option<MultiLocation>"%string) [])] 3%N []); (Variant "TransferAsset"%string [(Field (Some "assets"%string) 381%N (Some "MultiAssets"%string) []); (Field (Some "beneficiary"%string) 136%N (Some "MultiLocation"%string) [])] 4%N []); (Variant "TransferReserveAsset"%string [(Field (Some "assets"%string) 381%N (Some "MultiAssets"%string) []); (Field (Some "dest"%string) 136%N (Some "MultiLocation"%string) []); (Field (Some "xcm"%string) 378%N (Some "Xcm<()>"%string) [])] 5%N []); (Variant "Transact"%string [(Field (Some "origin_kind"%string) 372%N (Some "OriginKind"%string) []); (Field (Some "require_weight_at_most"%string) 9%N (Some "Weight"%string) []); (Field (Some "call"%string) 373%N (Some "DoubleEncoded<Call>"%string) [])] 6%N []); (Variant "HrmpNewChannelOpenRequest"%string [(Field (Some "sender"%string) 79%N (Some "u32"%string) []); (Field (Some "max_message_size"%string) 79%N (Some "u32"%string) []); (Field (Some "max_capacity"%string) 79%N (Some "u32"%string) [])] 7%N []); (Variant "HrmpChannelAccepted"%string [(Field (Some "recipient"%string) 79%N (Some "u32"%string) [])] 8%N []); (Variant "HrmpChannelClosing"%string [(Field (Some "initiator"%string) 79%N (Some "u32"%string) []); (Field (Some "sender"%string) 79%N (Some "u32"%string) []); (Field (Some "recipient"%string) 79%N (Some "u32"%string) [])] 9%N []); (Variant "ClearOrigin"%string [] 10%N []); (Variant "DescendOrigin"%string [(Field None 137%N (Some "InteriorMultiLocation"%string) [])] 11%N []); (Variant "ReportError"%string [(Field None 398%N (Some "QueryResponseInfo"%string) [])] 12%N []); (Variant "DepositAsset"%string [(Field (Some "assets"%string) 399%N (Some "MultiAssetFilter"%string) []); (Field (Some "beneficiary"%string) 136%N (Some "MultiLocation"%string) [])] 13%N []); (Variant "DepositReserveAsset"%string [(Field (Some "assets"%string) 399%N (Some "MultiAssetFilter"%string) []); (Field (Some "dest"%string) 136%N (Some "MultiLocation"%string) []); (Field (Some "xcm"%string) 378%N (Some "Xcm<()>"%string) [])] 14%N []); (Variant "ExchangeAsset"%string [(Field (Some "give"%string) 399%N (Some "MultiAssetFilter"%string) []); (Field (Some "want"%string) 381%N (Some "MultiAssets"%string) []); (Field (Some "maximal"%string) 44%N (Some "bool"%string) [])] 15%N []); (Variant "InitiateReserveWithdraw"%string [(Field (Some "assets"%string) 399%N (Some "MultiAssetFilter"%string) []); (Field (Some "reserve"%string) 136%N (Some "MultiLocation"%string) []); (Field (Some "xcm"%string) 378%N (Some "Xcm<()>"%string) [])] 16%N []); (Variant "InitiateTeleport"%string [(Field (Some "assets"%string) 399%N (Some "MultiAssetFilter"%string) []); (Field (Some "dest"%string) 136%N (Some "MultiLocation"%string) []); (Field (Some "xcm"%string) 378%N (Some "Xcm<()>"%string) [])] 17%N []); (Variant "ReportHolding"%string [(Field (Some "response_info"%string) 398%N (Some "QueryResponseInfo"%string) []); (Field (Some "assets"%string) 399%N (Some "MultiAssetFilter"%string) [])] 18%N []); (Variant "BuyExecution"%string [(Field (Some "fees"%string) 383%N (Some "MultiAsset"%string) []); (Field (Some "weight_limit"%string) 402%N (Some "WeightLimit"%string) [])] 19%N []); (Variant "RefundSurplus"%string [] 20%N []); (Variant "SetErrorHandler"%string [(Field None 378%N (Some "Xcm<Call>"%string) [])] 21%N []); (Variant "SetAppendix"%string [(Field None 378%N (Some "Xcm<Call>"%string) [])] 22%N []); (Variant "ClearError"%string [] 23%N []); (Variant "ClaimAsset"%string [(Field (Some "assets"%string) 381%N (Some "MultiAssets"%string) []); (Field (Some "ticket"%string) 136%N (Some "MultiLocation"%string) [])] 24%N []); (Variant "Trap"%string [(Field None 10%N (Some "u64"%string) [])] 25%N []); (Variant "SubscribeVersion"%string [(Field (Some "query_id"%string) 10%N (Some "QueryId"%string) []); (Field (Some "max_response_weight"%string) 9%N (Some "Weight"%string) [])] 26%N []); (Variant "UnsubscribeVersion"%string [] 27%N []); (Variant "BurnAsset"%string [(Field None 381%N (Some "MultiAssets"%string) [])] 28%N []); (Variant "ExpectAsset"%string [(Field None 381%N (Some "MultiAssets"%string) [])] 29%N []); (Variant "ExpectOrigin"%string [(Field None 397%N (Some "Option<MultiLocation>"%string) [])] 30%N []); (Variant "ExpectError"%string [(Field None 388%N (Some "Option<(u32, Error)>"%string) [])] 31%N []); (Variant "ExpectTransactStatus"%string [(Field None 395%N (Some "MaybeErrorCode"%string) [])] 32%N []); (Variant "QueryPallet"%string [(Field (Some "module_name"%string) 13%N (Some "Vec<u8>"%string) []); (Field (Some "response_info"%string) 398%N (Some "QueryResponseInfo"%string) [])] 33%N []); (Variant "ExpectPallet"%string [(Field (Some "index"%string) 79%N (Some "u32"%string) []); (Field (Some "name"%string) 13%N (Some "Vec<u8>"%string) []); (Field (Some "module_name"%string) 13%N (Some "Vec<u8>"%string) []); (Field (Some "crate_major"%string) 79%N (Some "u32"%string) []); (Field (Some "min_crate_minor"%string) 79%N (Some "u32"%string) [])] 34%N []); (Variant "ReportTransactStatus"%string [(Field None 398%N (Some "QueryResponseInfo"%string) [])] 35%N []); (Variant "ClearTransactStatus"%string [] 36%N []); (Variant "UniversalOrigin"%string [(Field None 138%N (Some "Junction"%string) [])] 37%N []); (Variant "ExportMessage"%string [(Field (Some "network"%string) 140%N (Some "NetworkId"%string) []); (Field (Some "destination"%string) 137%N (Some "InteriorMultiLocation"%string) []); (Field (Some "xcm"%string) 378%N (Some "Xcm<()>"%string) [])] 38%N []); (Variant "LockAsset"%string [(Field (Some "asset"%string) 383%N (Some "MultiAsset"%string) []); (Field (Some "unlocker"%string) 136%N (Some "MultiLocation"%string) [])] 39%N []); (Variant "UnlockAsset"%string [(Field (Some "asset"%string) 383%N (Some "MultiAsset"%string) []); (Field (Some "target"%string) 136%N (Some "MultiLocation"%string) [])] 40%N []); (Variant "NoteUnlockable"%string [(Field (Some "asset"%string) 383%N (Some "MultiAsset"%string) []); (Field (Some "owner"%string) 136%N (Some "MultiLocation"%string) [])] 41%N []); (Variant "RequestUnlock"%string [(Field (Some "asset"%string) 383%N (Some "MultiAsset"%string) []); (Field (Some "locker"%string) 136%N (Some "MultiLocation"%string) [])] 42%N []); (Variant "SetFeesMode"%string [(Field (Some "jit_withdraw"%string) 44%N (Some "bool"%string) [])] 43%N []); (Variant "SetTopic"%string [(Field None 1%N (Some "[u8; 32]"%string) [])] 44%N []); (Variant "ClearTopic"%string [] 45%N []); (Variant "AliasOrigin"%string [(Field None 136%N (Some "MultiLocation"%string) [])] 46%N []); (Variant "UnpaidExecution"%string [(Field (Some "weight_limit"%string) 402%N (Some "WeightLimit"%string) []); (Field (Some "check_origin"%string) 397%N (Some "Option<MultiLocation>"%string) [])] 47%N [])]) []).
Definition md_t381 : ty := (Ty ["xcm"%string; "v3"%string; "multiasset"%string; "MultiAssets"%string] [] (TComposite [(Field None 382%N (Some "Vec<MultiAsset>"%string) [])]) []).
Definition md_t382 : ty := (Ty [] [] (TSequence 383%N) []).
Definition md_t383 : ty := (Ty ["xcm"%string; "v3"%string; "multiasset"%string; "MultiAsset"%string] [] (TComposite [(Field (Some "id"%string) 384%N (Some "AssetId"%string) []); (Field (Some "fun"%string) 385%N (Some "Fungibility"%string) [])]) []).
Definition md_t384 : ty := (Ty ["xcm"%string; "v3"%string; "multiasset"%string; "AssetId"%string] [] (TVariant [(Variant "Concrete"%string [(Field None 136%N (Some "MultiLocation"%string) [])] 0%N []); (Variant "Abstract"%string [(Field None 1%N (Some "[u8; 32]"%string) [])] 1%N [])]) []).
Definition md_t385 : ty := (Ty ["xcm"%string; "v3"%string; "multiasset"%string; "Fungibility"%string] [] (TVariant [(Variant "Fungible"%string [(Field None 60%N (Some "u128"%string) [])] 0%N []); (Variant "NonFungible"%string [(Field None 386%N (Some "AssetInstance"%string) [])] 1%N [])]) []).
Definition md_t386 : ty := (Ty ["xcm"%string; "v3"%string; "multiasset"%string; "AssetInstance"%string] [] (TVariant [(Variant "Undefined"%string [] 0%N []); (Variant "Index"%string [(Field None 60%N (Some "u128"%string) [])] 1%N []); (Variant "Array4"%string [(Field None 17%N (Some "[u8; 4]"%string) [])] 2%N []); (Variant "Array8"%string [(Field None 172%N (Some "[u8; 8]"%string) [])] 3%N []); (Variant "Array16"%string [(Field None 47%N (Some "[u8; 16]"%string) [])] 4%N []); (Variant "Array32"%string [(Field None 1%N (Some "[u8; 32]"%string) [])] 5%N [])]) []).
Definition md_t387 : ty := (Ty ["xcm"%string; "v3"%string; "Response"%string] [] (TVariant [(Variant "Null"%string [] 0%N []); (Variant "Assets"%string [(Field None 381%N (Some "MultiAssets"%string) [])] 1%N []); (Variant "ExecutionResult"%string [(Field None 388%N (Some "Option<(u32, Error)>"%string) [])] 2%N []); (Variant "Version"%string [(Field None 4%N (Some "super::Version"%string) [])] 3%N []); (Variant "PalletsInfo"%string [(Field None 391%N (Some "BoundedVec<PalletInfo, MaxPalletsInfo>"%string) [])] 4%N []); (Variant "DispatchResult"%string [(Field None 395%N (Some "MaybeErrorCode"%string) [])] 5%N [])]) []).
Definition md_t388 : ty := (Ty ["Option"%string] [("T"%string,(Some 389%N))] (TVariant [(Variant "None"%string [] 0%N []); (Variant "Some"%string [(Field None 389%N None [])] 1%N [])]) []).
Definition md_t389 : ty := (Ty [] [] (TTuple [4%N; 390%N]) []).
Definition md_t390 : ty := (Ty ["xcm"%string; "v3"%string; "traits"%string; "Error"%string] [] (TVariant [(Variant "Overflow"%string [] 0%N []); (Variant "Unimplemented"%string [] 1%N []); (Variant "UntrustedReserveLocation"%string [] 2%N []); (Variant "UntrustedTeleportLocation"%string [] 3%N []); (Variant "LocationFull"%string [] 4%N []); (Variant "LocationNotInvertible"%string [] 5%N []); (Variant "BadOrigin"%string [] 6%N []); (Variant "InvalidLocation"%string [] 7%N []); (Variant "AssetNotFound"%string [] 8%N []); (Variant "FailedToTransactAsset"%string [] 9%N []); (Variant "NotWithdrawable"%string [] 10%N []); (Variant "LocationCannotHold"%string [] 11%N []); (Variant "ExceedsMaxMessageSize"%string [] 12%N []); (Variant "DestinationUnsupported"%string [] 13%N []); (Variant "Transport"%string [] 14%N []); (Variant "Unroutable"%string [] 15%N []); (Variant "UnknownClaim"%string [] 16%N []); (Variant "FailedToDecode"%string [] 17%N []); (Variant "MaxWeightInvalid"%string [] 18%N []); (Variant "NotHoldingFees"%string [] 19%N []); (Variant "TooExpensive"%string [] 20%N []); (Variant "Trap"%string [(Field None 11%N (Some "u64"%string) [])] 21%N []); (Variant "ExpectationFalse"%string [] 22%N []); (Variant "PalletNotFound"%string [] 23%N []); (Variant "NameMismatch"%string [] 24%N []); (Variant "VersionIncompatible"%string [] 25%N []); (Variant "HoldingWouldOverflow"%string [] 26%N []); (Variant "ExportError"%string [] 27%N []); (Variant "ReanchorFailed"%string [] 28%N []); (Variant "NoDeal"%string [] 29%N []); (Variant "FeesNotMet"%string [] 30%N []); (Variant "LockError"%string [] 31%N []); (Variant "NoPermission"%string [] 32%N []); (Variant "Unanchored"%string [] 33%N []); (Variant "NotDepositable"%string [] 34%N []); (Variant "UnhandledXcmVersion"%string [] 35%N []); (Variant "WeightLimitReached"%string [(Field None 9%N (Some "Weight"%string) [])] 36%N []); (Variant "Barrier"%string [] 37%N []); (Variant "WeightNotComputable"%string [] 38%N []); (Variant "ExceedsStackLimit"%string [] 39%N [])]) []).
Definition md_t391 : ty := (Ty ["bounded_collections"%string; "bounded_vec"%string; "BoundedVec"%string] [("T"%string,(Some 392%N)); ("S"%string,None)] (TComposite [(Field None 394%N (Some "Vec<T>"%string) [])]) []).
Definition md_t392 : ty := (Ty ["xcm"%string; "v3"%string; "PalletInfo"%string] [] (TComposite [(Field (Some "index"%string) 79%N (Some "u32"%string) []); (Field (Some "name"%string) 393%N (Some "BoundedVec<u8, MaxPalletNameLen>"%string) []); (Field (Some "module_name"%string) 393%N (Some "BoundedVec<u8, MaxPalletNameLen>"%string) []); (Field (Some "major"%string) 79%N (Some "u32"%string) []); (Field (Some "minor"%string) 79%N (Some "u32"%string) []); (Field (Some "patch"%string) 79%N (Some "u32"%string) [])]) []).
Definition md_t393 : ty := (Ty ["bounded_collections"%string; "bounded_vec"%string; "BoundedVec"%string] [("T"%string,(Some 2%N)); ("S"%string,None)] (TComposite [(Field None 13%N (Some "Vec<T>"%string) [])]) []).
Definition md_t394 : ty := (Ty [] [] (TSequence 392%N) []).
Definition md_t395 : ty := (Ty ["xcm"%string; "v3"%string; "MaybeErrorCode"%string] [] (TVariant [(Variant "Success"%string [] 0%N []); (Variant "Error"%string [(Field None 396%N (Some "BoundedVec<u8, MaxDispatchErrorLen>"%string) [])] 1%N []); (Variant "TruncatedError"%string [(Field None 396%N (Some "BoundedVec<u8, MaxDispatchErrorLen>"%string) [])] 2%N [])]) []).
Definition md_t396 : ty := (Ty ["bounded_collections"%string; "bounded_vec"%string; "BoundedVec"%string] [("T"%string,(Some 2%N)); ("S"%string,None)] (TComposite [(Field None 13%N (Some "Vec<T>"%string) [])]) []).
Definition md_t397 : ty := (Ty ["Option"%string] [("T"%string,(Some 136%N))] (TVariant [(Variant "None"%string [] 0%N []); (Variant "Some"%string [(Field None 136%N None [])] 1%N [])]) []).
Definition md_t398 : ty := (Ty ["xcm"%string; "v3"%string; "QueryResponseInfo"%string] [] (TComposite [(Field (Some "destination"%string) 136%N (Some "MultiLocation"%string) []); (Field (Some "query_id"%string) 10%N (Some "QueryId"%string) []); (Field (Some "max_weight"%string) 9%N (Some "Weight"%string) [])]) []).
Definition md_t399 : ty := (Ty ["xcm"%string; "v3"%string; "multiasset"%string; "MultiAssetFilter"%string] [] (TVariant [(Variant "Definite"%string [(Field None 381%N (Some "MultiAssets"%string) [])] 0%N []); (Variant "Wild"%string [(Field None 400%N (Some "WildMultiAsset"%string) [])] 1%N [])]) []).
Definition md_t400 : ty := (Ty ["xcm"%string; "v3"%string; "multiasset"%string; "WildMultiAsset"%string] [] (TVariant [(Variant "All"%string [] 0%N []); (Variant "AllOf"%string [(Field (Some "id"%string) 384%N (Some "AssetId"%string) []); (Field (Some "fun"%string) 401%N (Some "WildFungibility"%string) [])] 1%N []); (Variant "AllCounted"%string [(Field None 79%N (Some "u32"%string) [])] 2%N []); (Variant "AllOfCounted"%string [(Field (Some "id"%string) 384%N (Some "AssetId"%string) []); (Field (Some "fun"%string) 401%N (Some "WildFungibility"%string) []); (Field (Some "count"%string) 79%N (Some "u32"%string) [])] 3%N [])]) []).
Definition md_t401 : ty := (Ty ["xcm"%string; "v3"%string; "multiasset"%string; "WildFungibility"%string] [] (TVariant [(Variant "Fungible"%string [] 0%N []); (Variant "NonFungible"%string [] 1%N [])]) []).
Definition md_t402 : ty := (Ty ["xcm"%string; "v3"%string; "WeightLimit"%string] [] (TVariant [(Variant "Unlimited"%string [] 0%N []); (Variant "Limited"%string [(Field None 9%N (Some "Weight"%string) [])] 1%N [])]) []).
Definition md_t403 : ty := (Ty ["xcm"%string; "VersionedMultiAssets"%string] [] (TVariant [(Variant "V2"%string [(Field None 362%N (Some "v2::MultiAssets"%string) [])] 1%N []); (Variant "V3"%string [(Field None 381%N (Some "v3::MultiAssets"%string) [])] 3%N [])]) []).
Definition md_t404 : ty := (Ty ["xcm"%string; "VersionedXcm"%string] [("RuntimeCall"%string,None)] (TVariant [(Variant "V2"%string [(Field None 405%N (Some "v2::Xcm<RuntimeCall>"%string) [])] 2%N []); (Variant "V3"%string [(Field None 409%N (Some "v3::Xcm<RuntimeCall>"%string) [])] 3%N [])]) []).
Definition md_t405 : ty := (Ty ["xcm"%string; "v2"%string; "Xcm"%string] [("RuntimeCall"%string,None)] (TComposite [(Field None 406%N (Some "Vec<Instruction<RuntimeCall>>"%string) [])]) []).
Definition md_t406 : ty := (Ty [] [] (TSequence 407%N) []).
Definition md_t407 : ty := (Ty ["xcm"%string; "v2"%string; "Instruction"%string] [("RuntimeCall"%string,None)] (TVariant [(Variant "WithdrawAsset"%string [(Field None 362%N (Some "MultiAssets"%string) [])] 0%N []); (Variant "ReserveAssetDeposited"%string [(Field None 362%N (Some "MultiAssets"%string) [])] 1%N []); (Variant "ReceiveTeleportedAsset"%string [(Field None 362%N (Some "MultiAssets"%string) [])] 2%N []); (Variant "QueryResponse"%string [(Field (Some "query_id"%string) 10%N (Some "QueryId"%string) []); (Field (Some "response"%string) 368%N (Some "Response"%string) []); (Field (Some "max_weight"%string) 10%N (Some "u64"%string) [])] 3%N []); (Variant "TransferAsset"%string [(Field (Some "assets"%string) 362%N (Some "MultiAssets"%string) []); (Field (Some "beneficiary"%string) 351%N (Some "MultiLocation"%string) [])] 4%N []); (Variant "TransferReserveAsset"%string [(Field (Some "assets"%string) 362%N (Some "MultiAssets"%string) []); (Field (Some "dest"%string) 351%N (Some "MultiLocation"%string) []); (Field (Some "xcm"%string) 359%N (Some "Xcm<()>"%string) [])] 5%N []); (Variant "Transact"%string [(Field (Some "origin_type"%string) 372%N (Some "OriginKind"%string) []); (Field (Some "require_weight_at_most"%string) 10%N (Some "u64"%string) []); (Field (Some "call"%string) 408%N (Some "DoubleEncoded<RuntimeCall>"%string) [])] 6%N []); (Variant "HrmpNewChannelOpenRequest"%string [(Field (Some "sender"%string) 79%N (Some "u32"%string) []); (Field (Some "max_message_size"%string) 79%N (Some "u32"%string) []); (Field (Some "max_capacity"%string) 79%N (Some "u32"%string) [])] 7%N []); (Variant "HrmpChannelAccepted"%string [(Field (Some "recipient"%string) 79%N (Some "u32"%string) [])] 8%N []); (Variant "HrmpChannelClosing"%string [(Field (Some "initiator"%string) 79%N (Some "u32"%string) []); (Field (Some "sender"%string) 79%N (Some "u32"%string) []); (Field (Some "recipient"%string) 79%N (Some "u32"%string) [])] 9%N []); (Variant "ClearOrigin"%string [] 10%N []); (Variant "DescendOrigin"%string [(Field None 352%N (Some "InteriorMultiLocation"%string) [])] 11%N []); (Variant "ReportError"%string [(Field (Some "query_id"%string) 10%N (Some "QueryId"%string) []); (Field (Some "dest"%string) 351%N (Some "MultiLocation"%string) []); (Field (Some "max_response_weight"%string) 10%N (Some "u64"%string) [])] 12%N []); (Variant "DepositAsset"%string [(Field (Some "assets"%string) 374%N (Some "MultiAssetFilter"%string) []); (Field (Some "max_assets"%string) 79%N (Some "u32"%string) []); (Field (Some "beneficiary"%string) 351%N (Some "MultiLocation"%string) [])] 13%N []); (Variant "DepositReserveAsset"%string [(Field (Some "assets"%string) 374%N (Some "MultiAssetFilter"%string) []); (Field (Some "max_assets"%string) 79%N (Some "u32"%string) []); (Field (Some "dest"%string) 351%N (Some "MultiLocation"%string) []); (Field (Some "xcm"%string) 359%N (Some "Xcm<()>"%string) [])] 14%N []); (Variant "ExchangeAsset"%string [(Field (Some "give"%string) 374%N (Some "MultiAssetFilter"%string) []); (Field (Some "receive"%string) 362%N (Some "MultiAssets"%string) [])] 15%N []); (Variant "InitiateReserveWithdraw"%string [(Field (Some "assets"%string) 374%N (Some "MultiAssetFilter"%string) []); (Field (Some "reserve"%string) 351%N (Some "MultiLocation"%string) []); (Field (Some "xcm"%string) 359%N (Some "Xcm<()>"%string) [])] 16%N []); (Variant "InitiateTeleport"%string [(Field (Some "assets"%string) 374%N (Some "MultiAssetFilter"%string) []); (Field (Some "dest"%string) 351%N (Some "MultiLocation"%string) []); (Field (Some "xcm"%string) 359%N (Some "Xcm<()>"%string) [])] 17%N []); (Variant "QueryHolding"%string [(Field (Some "query_id"%string) 10%N (Some "QueryId"%string) []); (Field (Some "dest"%string) 351%N (Some "MultiLocation"%string) []); (Field (Some "assets"%string) 374%N (Some "MultiAssetFilter"%string) []); (Field (Some "max_response_weight"%string) 10%N (Some "u64"%string) [])] 18%N []); (Variant "BuyExecution"%string [(Field (Some "fees"%string) 364%N (Some "MultiAsset"%string) []); (Field (Some "weight_limit"%string) 377%N (Some "WeightLimit"%string) [])] 19%N []); (Variant "RefundSurplus"%string [] 20%N []); (Variant "SetErrorHandler"%string [(Field None 405%N (Some "Xcm<RuntimeCall>"%string) [])] 21%N []); (Variant "SetAppendix"%string [(Field None 405%N (Some "Xcm<RuntimeCall>"%string) [])] 22%N []); (Variant "ClearError"%string [] 23%N []); (Variant "ClaimAsset"%string [(Field (Some "assets"%string) 362%N (Some "MultiAssets"%string) []); (Field (Some "ticket"%string) 351%N (Some "MultiLocation"%string) [])] 24%N []); (Variant "Trap"%string [(Field None 10%N (Some "u64"%string) [])] 25%N []); (Variant "SubscribeVersion"%string [(Field (Some "query_id"%string) 10%N (Some "QueryId"%string) []); (Field (Some "max_response_weight"%string) 10%N (Some "u64"%string) [])] 26%N []); (Variant "UnsubscribeVersion"%string [] 27%N [])]) []).
Definition md_t408 : ty := (Ty ["xcm"%string; "double_encoded"%string; "DoubleEncoded"%string] [("T"%string,None)] (TComposite [(Field (Some "encoded"%string) 13%N (Some "Vec<u8>"%string) [])]) []).
Definition md_t409 : ty := (Ty ["xcm"%string; "v3"%string; "Xcm"%string] [("Call"%string,None)] (TComposite [(Field None 410%N (Some "Vec<Instruction<Call>>"%string) [])]) []).
Definition md_t410 : ty := (Ty [] [] (TSequence 411%N) []).
Definition md_t411 : ty := (Ty ["xcm"%string; "v3"%string; "Instruction"%string] [("Call"%string,None)] (TVariant [(Variant "WithdrawAsset"%string [(Field None 381%N (Some "MultiAssets"%string) [])] 0%N []); (Variant "ReserveAssetDeposited"%string [(Field None 381%N (Some "MultiAssets"%string) [])] 1%N []); (Variant "ReceiveTeleportedAsset"%string [(Field None 381%N (Some "MultiAssets"%string) [])] 2%N []); (Variant "QueryResponse"%string [(Field (Some "query_id"%string) 10%N (Some "QueryId"%string) []); (Field (Some "response"%string) 387%N (Some "Response"%string) []); (Field (Some "max_weight"%string) 9%N (Some "Weight"%string) []); (Field (Some "querier"%string) 397%N (Some "Option<MultiLocation>"%string) [])] 3%N []); (Variant "TransferAsset"%string [(Field (Some "assets"%string) 381%N (Some "MultiAssets"%string) []); (Field (Some "beneficiary"%string) 136%N (Some "MultiLocation"%string) [])] 4%N []); (Variant "TransferReserveAsset"%string [(Field (Some "assets"%string) 381%N (Some "MultiAssets"%string) []); (Field (Some "dest"%string) 136%N (Some "MultiLocation"%string) []); (Field (Some "xcm"%string) 378%N (Some "Xcm<()>"%string) [])] 5%N []); (Variant "Transact"%string [(Field (Some "origin_kind"%string) 372%N (Some "OriginKind"%string) []); (Field (Some "require_weight_at_most"%string) 9%N (Some "Weight"%string) []); (Field (Some "call"%string) 408%N (Some "DoubleEncoded<Call>"%string) [])] 6%N []); (Variant "HrmpNewChannelOpenRequest"%string [(Field (Some "sender"%string) 79%N (Some "u32"%string) []); (Field (Some "max_message_size"%string) 79%N (Some "u32"%string) []); (Field (Some "max_capacity"%string) 79%N (Some "u32"%string) [])] 7%N []); (Variant "HrmpChannelAccepted"%string [(Field (Some "recipient"%string) 79%N (Some "u32"%string) [])] 8%N []); (Variant "HrmpChannelClosing"%string [(Field (Some "initiator"%string) 79%N (Some "u32"%string) []); (Field (Some "sender"%string) 79%N (Some "u32"%string) []); (Field (Some "recipient"%string) 79%N (Some "u32"%string) [])] 9%N []); (Variant "ClearOrigin"%string [] 10%N []); (Variant "DescendOrigin"%string [(Field None 137%N (Some "InteriorMultiLocation"%string) [])] 11%N []); (Variant "ReportError"%string [(Field None 398%N (Some "QueryResponseInfo"%string) [])] 12%N []); (Variant "DepositAsset"%string [(Field (Some "assets"%string) 399%N (Some "MultiAssetFilter"%string) []); (Field (Some "beneficiary"%string) 136%N (Some "MultiLocation"%string) [])] 13%N []); (Variant "DepositReserveAsset"%string [(Field (Some "assets"%string) 399%N (Some "MultiAssetFilter"%string) []); (Field (Some "dest"%string) 136%N (Some "MultiLocation"%string) []); (Field (Some "xcm"%string) 378%N (Some "Xcm<()>"%string) [])] 14%N []); (Variant "ExchangeAsset"%string [(Field (Some "give"%string) 399%N (Some "MultiAssetFilter"%string) []); (Field (Some "want"%string) 381%N (Some "MultiAssets"%string) []); (Field (Some "maximal"%string) 44%N (Some "bool"%string) [])] 15%N []); (Variant "InitiateReserveWithdraw"%string [(Field (Some "assets"%string) 399%N (Some "MultiAssetFilter"%string) []); (Field (Some "reserve"%string) 136%N (Some "MultiLocation"%string) []); (Field (Some "xcm"%string) 378%N (Some "Xcm<()>"%string) [])] 16%N []); (Variant "InitiateTeleport"%string [(Field (Some "assets"%string) 399%N (Some "MultiAssetFilter"%string) []); (Field (Some "dest"%string) 136%N (Some "MultiLocation"%string) []); (Field (Some "xcm"%string) 378%N (Some "Xcm<()>"%string) [])] 17%N []); (Variant "ReportHolding"%string [(Field (Some "response_info"%string) 398%N (Some "QueryResponseInfo"%string) []); (Field (Some "assets"%string) 399%N (Some "MultiAssetFilter"%string) [])] 18%N []); (Variant "BuyExecution"%string [(Field (Some "fees"%string) 383%N (Some "MultiAsset"%string) []); (Field (Some "weight_limit"%string) 402%N (Some "WeightLimit"%string) [])] 19%N []); (Variant "RefundSurplus"%string [] 20%N []); (Variant "SetErrorHandler"%string [(Field None 409%N (Some "Xcm<Call>"%string) [])] 21%N []); (Variant "SetAppendix"%string [(Field None 409%N (Some "Xcm<Call>"%string) [])] 22%N []); (Variant "ClearError"%string [] 23%N []); (Variant "ClaimAsset"%string [(Field (Some "assets"%string) 381%N (Some "MultiAssets"%string) []); (Field (Some "ticket"%string) 136%N (Some "MultiLocation"%string) [])] 24%N []); (Variant "Trap"%string [(Field None 10%N (Some "u64"%string) [])] 25%N []); (Variant "SubscribeVersion"%string [(Field (Some "query_id"%string) 10%N (Some "QueryId"%string) []); (Field (Some "max_response_weight"%string) 9%N (Some "Weight"%string) [])] 26%N []); (Variant "UnsubscribeVersion"%string [] 27%N []); (Variant "BurnAsset"%string [(Field None 381%N (Some "MultiAssets"%string) [])] 28%N []); (Variant "ExpectAsset"%string [(Field None 381%N (Some "MultiAssets"%string) [])] 29%N []); (Variant "ExpectOrigin"%string [(Field None 397%N (Some "Option<MultiLocation>"%string) [])] 30%N []); (Variant "ExpectError"%string [(Field None 388%N (Some "Option<(u32, Error)>"%string) [])] 31%N []); (Variant "ExpectTransactStatus"%string [(Field None 395%N (Some "MaybeErrorCode"%string) [])] 32%N []); (Variant "QueryPallet"%string [(Field (Some "module_name"%string) 13%N (Some "Vec<u8>"%string) []); (Field (Some "response_info"%string) 398%N (Some "QueryResponseInfo"%string) [])] 33%N []); (Variant "ExpectPallet"%string [(Field (Some "index"%string) 79%N (Some "u32"%string) []); (Field (Some "name"%string) 13%N (Some "Vec<u8>"%string) []); (Field (Some "module_name"%string) 13%N (Some "Vec<u8>"%string) []); (Field (Some "crate_major"%string) 79%N (Some "u32"%string) []); (Field (Some "min_crate_minor"%string) 79%N (Some "u32"%string) [])] 34%N []); (Variant "ReportTransactStatus"%string [(Field None 398%N (Some "QueryResponseInfo"%string) [])] 35%N []); (Variant "ClearTransactStatus"%string [] 36%N []); (Variant "UniversalOrigin"%string [(Field None 138%N (Some "Junction"%string) [])] 37%N []); (Variant "ExportMessage"%string [(Field (Some "network"%string) 140%N (Some "NetworkId"%string) []); (Field (Some "destination"%string) 137%N (Some "InteriorMultiLocation"%string) []); (Field (Some "xcm"%string) 378%N (Some "Xcm<()>"%string) [])] 38%N []); (Variant "LockAsset"%string [(Field (Some "asset"%string) 383%N (Some "MultiAsset"%string) []); (Field (Some "unlocker"%string) 136%N (Some "MultiLocation"%string) [])] 39%N []); (Variant "UnlockAsset"%string [(Field (Some "asset"%string) 383%N (Some "MultiAsset"%string) []); (Field (Some "target"%string) 136%N (Some "MultiLocation"%string) [])] 40%N []); (Variant "NoteUnlockable"%string [(Field (Some "asset"%string) 383%N (Some "MultiAsset"%string) []); (Field (Some "owner"%string) 136%N (Some "MultiLocation"%string) [])] 41%N []); (Variant "RequestUnlock"%string [(Field (Some "asset"%string) 383%N (Some "MultiAsset"%string) []); (Field (Some "locker"%string) 136%N (Some "MultiLocation"%string) [])] 42%N []); (Variant "SetFeesMode"%string [(Field (Some "jit_withdraw"%string) 44%N (Some "bool"%string) [])] 43%N []); (Variant "SetTopic"%string [(Field None 1%N (Some "[u8; 32]"%string) [])] 44%N []); (Variant "ClearTopic"%string [] 45%N []); (Variant "AliasOrigin"%string [(Field None 136%N (Some "MultiLocation"%string) [])] 46%N []); (Variant "UnpaidExecution"%string [(Field (Some "weight_limit"%string) 402%N (Some "WeightLimit"%string) []); (Field (Some "check_origin"%string) 397%N (Some "Option<MultiLocation>"%string) [])] 47%N [])]) []).
Definition md_t412 : ty := (Ty ["pallet_message_queue"%string; "pallet"%string; "Call"%string] [("T"%string,None)] (TVariant [(Variant "reap_page"%string [(Field (Some "message_origin"%string) 413%N (Some "MessageOriginOf<T>"%string) []); (Field (Some "page_index"%string) 4%N (Some "PageIndex"%string) [])] 0%N ["See [`Pallet::reap_page`]."%string]); (Variant "execute_overweight"%string [(Field (Some "message_origin"%string) 413%N (Some "MessageOriginOf<T>"%string) []); (Field (Some "page"%string) 4%N (Some "PageIndex"%string) []); (Field (Some "index"%string) 4%N (Some "T::Size"%string) []); (Field (Some "weight_limit"%string) 9%N (Some "Weight"%string) [])] 1%N ["See [`Pallet::execute_overweight`]."%string])]) ["Contains a variant per dispatchable extrinsic that this pallet has."%string]).
Definition md_t413 : ty := (Ty ["polkadot_runtime_parachains"%string; "inclusion"%string; "AggregateMessageOrigin"%string] [] (TVariant [(Variant "Ump"%string [(Field None 414%N (Some "UmpQueueId"%string) [])] 0%N [])]) []).
Definition md_t414 : ty := (Ty ["polkadot_runtime_parachains"%string; "inclusion"%string; "UmpQueueId"%string] [] (TVariant [(Variant "Para"%string [(Field None 134%N (Some "ParaId"%string) [])] 0%N [])]) []).
Definition md_t415 : ty := (Ty ["bounded_collections"%string; "bounded_vec"%string; "BoundedVec"%string] [("T"%string,(Some 2%N)); ("S"%string,None)] (TComposite [(Field None 13%N (Some "Vec<T>"%string) [])]) []).
Definition md_t416 : ty := (Ty ["pallet_conviction_voting"%string; "types"%string; "Tally"%string] [("Votes"%string,(Some 6%N)); ("Total"%string,None)] (TComposite [(Field (Some "ayes"%string) 6%N (Some "Votes"%string) []); (Field (Some "nays"%string) 6%N (Some "Votes"%string) []); (Field (Some "support"%string) 6%N (Some "Votes"%string) [])]) []).
Definition md_t417 : ty := (Ty ["pallet_whitelist"%string; "pallet"%string; "Event"%string] [("T"%string,None)] (TVariant [(Variant "CallWhitelisted"%string [(Field (Some "call_hash"%string) 12%N (Some "PreimageHash"%string) [])] 0%N []); (Variant "WhitelistedCallRemoved"%string [(Field (Some "call_hash"%string) 12%N (Some "PreimageHash"%string) [])] 1%N []); (Variant "WhitelistedCallDispatched"%string [(Field (Some "call_hash"%string) 12%N (Some "PreimageHash"%string) []); (Field (Some "result"%string) 418%N (Some "DispatchResultWithPostInfo"%string) [])] 2%N [])]) ["The `Event` enum of this pallet"%string]).
Definition md_t418 : ty := (Ty ["Result"%string] [("T"%string,(Some 419%N)); ("E"%string,(Some 421%N))] (TVariant [(Variant "Ok"%string [(Field None 419%N None [])] 0%N []); (Variant "Err"%string [(Field None 421%N None [])] 1%N [])]) []).
Definition md_t419 : ty := (Ty ["frame_support"%string; "dispatch"%string; "PostDispatchInfo"%string] [] (TComposite [(Field (Some "actual_weight"%string) 420%N (Some "Option<Weight>"%string) []); (Field (Some "pays_fee"%string) 24%N (Some "Pays"%string) [])]) []).
Definition md_t420 : ty := (Ty ["Option"%string] [("T"%string,(Some 9%N))] (TVariant [(Variant "None"%string [] 0%N []); (Variant "Some"%string [(Field None 9%N None [])] 1%N [])]) []).
Definition md_t421 : ty := (Ty ["sp_runtime"%string; "DispatchErrorWithPostInfo"%string] [("Info"%string,(Some 419%N))] (TComposite [(Field (Some "post_info"%string) 419%N (Some "Info"%string) []); (Field (Some "error"%string) 25%N (Some "DispatchError"%string) [])]) []).
Definition md_t422 : ty := (Ty ["polkadot_runtime_common"%string; "claims"%string; "pallet"%string; "Event"%string] [("T"%string,None)] (TVariant [(Variant "Claimed"%string [(Field (Some "who"%string) 0%N (Some "T::AccountId"%string) []); (Field (Some "ethereum_address"%string) 150%N (Some "EthereumAddress"%string) []); (Field (Some "amount"%string) 6%N (Some "BalanceOf<T>"%string) [])] 0%N ["Someone claimed some DOTs."%string])]) ["The `Event` enum of this pallet"%string]).
Definition md_t423 : ty := (Ty ["pallet_vesting"%string; "pallet"%string; "Event"%string] [("T"%string,None)] (TVariant [(Variant "VestingUpdated"%string [(Field (Some "account"%string) 0%N (Some "T::AccountId"%string) []); (Field (Some "unvested"%string) 6%N (Some "BalanceOf<T>"%string) [])] 0%N ["The amount vested has been updated. This could indicate a change in funds available."%string; "The balance given is the amount which is left unvested (and thus locked)."%string]); (Variant "VestingCompleted"%string [(Field (Some "account"%string) 0%N (Some "T::AccountId"%string) [])] 1%N ["An \[account\] has become fully vested."%string])]) ["The `Event` enum of this pallet"%string]).
Definition md_t424 : ty := (Ty ["pallet_utility"%string; "pallet"%string; "Event"%string] [] (TVariant [(Variant "BatchInterrupted"%string [(Field (Some "index"%string) 4%N (Some "u32"%string) []); (Field (Some "error"%string) 25%N (Some "DispatchError"%string) [])] 0%N ["Batch of dispatches did not complete fully. Index of first failing dispatch given, as"%string; "well as the error."%string]); (Variant "BatchCompleted"%string [] 1%N ["Batch of dispatches completed fully with no error."%string]); (Variant "BatchCompletedWithErrors"%string [] 2%N ["Batch of dispatches completed but has errors."%string]); (Variant "ItemCompleted"%string [] 3%N ["A single item within a Batch of dispatches has completed with no error."%string]); (Variant "ItemFailed"%string [(Field (Some "error"%string) 25%N (Some "DispatchError"%string) [])] 4%N ["A single item within a Batch of dispatches has completed with error."%string]); (Variant "DispatchedAs"%string [(Field (Some "result"%string) 33%N (Some "DispatchResult"%string) [])] 5%N ["A call was dispatched."%string])]) ["The `Event` enum of this pallet"%string]).
Definition md_t425 : ty := (Ty ["pallet_identity"%string; "pallet"%string; "Event"%string] [("T"%string,None)] (TVariant [(Variant "IdentitySet"%string [(Field (Some "who"%string) 0%N (Some "T::AccountId"%string) [])] 0%N ["A name was set or reset (which will remove all judgements)."%string]); (Variant "IdentityCleared"%string [(Field (Some "who"%string) 0%N (Some "T::AccountId"%string) []); (Field (Some "deposit"%string) 6%N (Some "BalanceOf<T>"%string) [])] 1%N ["A name was cleared, and the given balance returned."%string]); (Variant "IdentityKilled"%string [(Field (Some "who"%string) 0%N (Some "T::AccountId"%string) []); (Field (Some "deposit"%string) 6%N (Some "BalanceOf<T>"%string) [])] 2%N ["A name was removed and the given balance slashed."%string]); (Variant "JudgementRequested"%string [(Field (Some "who"%string) 0%N (Some "T::AccountId"%string) []); (Field (Some "registrar_index"%string) 4%N (Some "RegistrarIndex"%string) [])] 3%N ["A judgement was asked from a registrar."%string]); (Variant "JudgementUnrequested"%string [(Field (Some "who"%string) 0%N (Some "T::AccountId"%string) []); (Field (Some "registrar_index"%string) 4%N (Some "RegistrarIndex"%string) [])] 4%N ["A judgement request was retracted."%string]); (Variant "JudgementGiven"%string [(Field (Some "target"%string) 0%N (Some "T::AccountId"%string) []); (Field (Some "registrar_index"%string) 4%N (Some "RegistrarIndex"%string) [])] 5%N ["A judgement was given by a registrar."%string]); (Variant "RegistrarAdded"%string [(Field (Some "registrar_index"%string) 4%N (Some "RegistrarIndex"%string) [])] 6%N ["A registrar was added."%string]); (Variant "SubIdentityAdded"%string [(Field (Some "sub"%string) 0%N (Some "T::AccountId"%string) []); (Field (Some "main"%string) 0%N (Some "T::AccountId"%string) []); (Field (Some "deposit"%string) 6%N (Some "BalanceOf<T>"%string) [])] 7%N ["A sub-identity was added to an identity and the deposit paid."%string]); (Variant "SubIdentityRemoved"%string [(Field (Some "sub"%string) 0%N (Some "T::AccountId"%string) []); (Field (Some "main"%string) 0%N (Some "T::AccountId"%string) []); (Field (Some "deposit"%string) 6%N (Some "BalanceOf<T>"%string) [])] 8%N ["A sub-identity was removed from an identity and the deposit freed."%string]); (Variant "SubIdentityRevoked"%string [(Field (Some "sub"%string) 0%N (Some "T::AccountId"%string) []); (Field (Some "main"%string) 0%N (Some "T::AccountId"%string) []); (Field (Some "deposit"%string) 6%N (Some "BalanceOf<T>"%string) [])] 9%N ["A sub-identity was cleared, and the given deposit repatriated from the"%string; "main identity account to the sub-identity account."%string])]) ["The `Event` enum of this pallet"%string]).
Definition md_t426 : ty := (Ty ["pallet_proxy"%string; "pallet"%string; "Event"%string] [("T"%string,None)] (TVariant [(Variant "ProxyExecuted"%string [(Field (Some "result"%string) 33%N (Some "DispatchResult"%string) [])] 0%N ["A proxy was executed correctly, with the given."%string]); (Variant "PureCreated"%string [(Field (Some "pure"%string) 0%N (Some "T::AccountId"%string) []); (Field (Some "who"%string) 0%N (Some "T::AccountId"%string) []); (Field (Some "proxy_type"%string) 203%N (Some "T::ProxyType"%string) []); (Field (Some "disambiguation_index"%string) 66%N (Some "u16"%string) [])] 1%N ["A pure account has been created by new proxy with given"%string; "disambiguation index and proxy type."%string]); (Variant "Announced"%string [(Field (Some "real"%string) 0%N (Some "T::AccountId"%string) []); (Field (Some "proxy"%string) 0%N (Some "T::AccountId"%string) []); (Field (Some "call_hash"%string) 12%N (Some "CallHashOf<T>"%string) [])] 2%N ["An announcement was placed to make a call in the future."%string]); (Variant "ProxyAdded"%string [(Field (Some "delegator"%string) 0%N (Some "T::AccountId"%string) []); (Field (Some "delegatee"%string) 0%N (Some "T::AccountId"%string) []); (Field (Some "proxy_type"%string) 203%N (Some "T::ProxyType"%string) []); (Field (Some "delay"%string) 4%N (Some "BlockNumberFor<T>"%string) [])] 3%N ["A proxy was added."%string]); (Variant "ProxyRemoved"%string [(Field (Some "delegator"%string) 0%N (Some "T::AccountId"%string) []); (Field (Some "delegatee"%string) 0%N (Some "T::AccountId"%string) []); (Field (Some "proxy_type"%string) 203%N (Some "T::ProxyType"%string) []); (Field (Some "delay"%string) 4%N (Some "BlockNumberFor<T>"%string) [])] 4%N ["A proxy was removed."%string])]) ["The `Event` enum of this pallet"%string]).
Definition md_t427 : ty := (Ty ["pallet_multisig"%string; "pallet"%string; "Event"%string] [("T"%string,None)] (TVariant [(Variant "NewMultisig"%string [(Field (Some "approving"%string) 0%N (Some "T::AccountId"%string) []); (Field (Some "multisig"%string) 0%N (Some "T::AccountId"%string) []); (Field (Some "call_hash"%string) 1%N (Some "CallHash"%string) [])] 0%N ["A new multisig operation has begun."%string]); (Variant "MultisigApproval"%string [(Field (Some "approving"%string) 0%N (Some "T::AccountId"%string) []); (Field (Some "timepoint"%string) 206%N (Some "Timepoint<BlockNumberFor<T>>"%string) []); (Field (Some "multisig"%string) 0%N (Some "T::AccountId"%string) []); (Field (Some "call_hash"%string) 1%N (Some "CallHash"%string) [])] 1%N ["A multisig operation has been approved by someone."%string]); (Variant "MultisigExecuted"%string [(Field (Some "approving"%string) 0%N (Some "T::AccountId"%string) []); (Field (Some "timepoint"%string) 206%N (Some "Timepoint<BlockNumberFor<T>>"%string) []); (Field (Some "multisig"%string) 0%N (Some "T::AccountId"%string) []); (Field (Some "call_hash"%string) 1%N (Some "CallHash"%string) []); (Field (Some "result"%string) 33%N (Some "DispatchResult"%string) [])] 2%N ["A multisig operation has been executed."%string]); (Variant "MultisigCancelled"%string [(Field (Some "cancelling"%string) 0%N (Some "T::AccountId"%string) []); (Field (Some "timepoint"%string) 206%N (Some "Timepoint<BlockNumberFor<T>>"%string) []); (Field (Some "multisig"%string) 0%N (Some "T::AccountId"%string) []); (Field (Some "call_hash"%string) 1%N (Some "CallHash"%string) [])] 3%N ["A multisig operation has been cancelled."%string])]) ["The `Event` enum of this pallet"%string]).
Definition md_t428 : ty := (Ty ["pallet_bounties"%string; "pallet"%string; "Event"%string] [("T"%string,None); ("I"%string,None)] (TVariant [(Variant "BountyProposed"%string [(Field (Some "index"%string) 4%N (Some "BountyIndex"%string) [])] 0%N ["New bounty proposal."%string]); (Variant "BountyRejected"%string [(Field (Some "index"%string) 4%N (Some "BountyIndex"%string) []); (Field (Some "bond"%string) 6%N (Some "BalanceOf<T, I>"%string) [])] 1%N ["A bounty proposal was rejected; funds were slashed."%string]); (Variant "BountyBecameActive"%string [(Field (Some "index"%string) 4%N (Some "BountyIndex"%string) [])] 2%N ["A bounty proposal is funded and became active."%string]); (Variant "BountyAwarded"%string [(Field (Some "index"%string) 4%N (Some "BountyIndex"%string) []); (Field (Some "beneficiary"%string) 0%N (Some "T::AccountId"%string) [])] 3%N ["A bounty is awarded to a beneficiary."%string]); (Variant "BountyClaimed"%string [(Field (Some "index"%string) 4%N (Some "BountyIndex"%string) []); (Field (Some "payout"%string) 6%N (Some "BalanceOf<T, I>"%string) []); (Field (Some "beneficiary"%string) 0%N (Some "T::AccountId"%string) [])] 4%N ["A bounty is claimed by beneficiary."%string]); (Variant "BountyCanceled"%string [(Field (Some "index"%string) 4%N (Some "BountyIndex"%string) [])] 5%N ["A bounty is cancelled."%string]); (Variant "BountyExtended"%string [(Field (Some "index"%string) 4%N (Some "BountyIndex"%string) [])] 6%N ["A bounty expiry is extended."%string])]) ["The `Event` enum of this pallet"%string]).
Definition md_t429 : ty := (Ty ["pallet_child_bounties"%string; "pallet"%string; "Event"%string] [("T"%string,None)] (TVariant [(Variant "Added"%string [(Field (Some "index"%string) 4%N (Some "BountyIndex"%string) []); (Field (Some "child_index"%string) 4%N (Some "BountyIndex"%string) [])] 0%N ["A child-bounty is added."%string]); (Variant "Awarded"%string [(Field (Some "index"%string) 4%N (Some "BountyIndex"%string) []); (Field (Some "child_index"%string) 4%N (Some "BountyIndex"%string) []); (Field (Some "beneficiary"%string) 0%N (Some "T::AccountId"%string) [])] 1%N ["A child-bounty is awarded to a beneficiary."%string]); (Variant "Claimed"%string [(Field (Some "index"%string) 4%N (Some "BountyIndex"%string) []); (Field (Some "child_index"%string) 4%N (Some "BountyIndex"%string) []); (Field (Some "payout"%string) 6%N (Some "BalanceOf<T>"%string) []); (Field (Some "beneficiary"%string) 0%N (Some "T::AccountId"%string) [])] 2%N ["A child-bounty is claimed by beneficiary."%string]); (Variant "Canceled"%string [(Field (Some "index"%string) 4%N (Some "BountyIndex"%string) []); (Field (Some "child_index"%string) 4%N (Some "BountyIndex"%string) [])] 3%N ["A child-bounty is cancelled."%string])]) ["The `Event` enum of this pallet"%string]).
Definition md_t430 : ty := (Ty ["pallet_election_provider_multi_phase"%string; "pallet"%string; "Event"%string] [("T"%string,None)] (TVariant [(Variant "SolutionStored"%string [(Field (Some "compute"%string) 431%N (Some "ElectionCompute"%string) []); (Field (Some "origin"%string) 155%N (Some "Option<T::AccountId>"%string) []); (Field (Some "prev_ejected"%string) 44%N (Some "bool"%string) [])] 0%N ["A solution was stored with the given compute."%string; ""%string; "The `origin` indicates the origin of the solution. If `origin` is `Some(AccountId)`,"%string; "the stored solution was submited in the signed phase by a miner with the `AccountId`."%string; "Otherwise, the solution was stored either during the unsigned phase or by"%string; "`T::ForceOrigin`. The `bool` is `true` when a previous solution was ejected to make"%string; "room for this one."%string]); (Variant "ElectionFinalized"%string [(Field (Some "compute"%string) 431%N (Some "ElectionCompute"%string) []); (Field (Some "score"%string) 262%N (Some "ElectionScore"%string) [])] 1%N ["The election has been finalized, with the given computation and score."%string]); (Variant "ElectionFailed"%string [] 2%N ["An election failed."%string; ""%string; "Not much can be said about which computes failed in the process."%string]); (Variant "Rewarded"%string [(Field (Some "account"%string) 0%N (Some "<T as frame_system::Config>::AccountId"%string) []); (Field (Some "value"%string) 6%N (Some "BalanceOf<T>"%string) [])] 3%N ["An account has been rewarded for their signed submission being finalized."%string]); (Variant "Slashed"%string [(Field (Some "account"%string) 0%N (Some "<T as frame_system::Config>::AccountId"%string) []); (Field (Some "value"%string) 6%N (Some "BalanceOf<T>"%string) [])] 4%N ["An account has been slashed for submitting an invalid signed submission."%string]); (Variant "PhaseTransitioned"%string [(Field (Some "from"%string) 432%N (Some "Phase<BlockNumberFor<T>>"%string) []); (Field (Some "to"%string) 432%N (Some "Phase<BlockNumberFor<T>>"%string) []); (Field (Some "round"%string) 4%N (Some "u32"%string) [])] 5%N ["There was a phase transition in a given round."%string])]) ["The `Event` enum of this pallet"%string]).
Definition md_t431 : ty := (Ty ["pallet_election_provider_multi_phase"%string; "ElectionCompute"%string] [] (TVariant [(Variant "OnChain"%string [] 0%N []); (Variant "Signed"%string [] 1%N []); (Variant "Unsigned"%string [] 2%N []); (Variant "Fallback"%string [] 3%N []); (Variant "Emergency"%string [] 4%N [])]) []).
Definition md_t432 : ty := (Ty ["pallet_election_provider_multi_phase"%string; "Phase"%string] [("Bn"%string,(Some 4%N))] (TVariant [(Variant "Off"%string [] 0%N []); (Variant "Signed"%string [] 1%N []); (Variant "Unsigned"%string [(Field None 433%N (Some "(bool, Bn)"%string) [])] 2%N []); (Variant "Emergency"%string [] 3%N [])]) []).
Definition md_t433 : ty := (Ty [] [] (TTuple [44%N; 4%N]) []).
Definition md_t434 : ty := (Ty ["pallet_bags_list"%string; "pallet"%string; "Event"%string] [("T"%string,None); ("I"%string,None)] (TVariant [(Variant "Rebagged"%string [(Field (Some "who"%string) 0%N (Some "T::AccountId"%string) []); (Field (Some "from"%string) 11%N (Some "T::Score"%string) []); (Field (Some "to"%string) 11%N (Some "T::Score"%string) [])] 0%N ["Moved an account from one bag to another."%string]); (Variant "ScoreUpdated"%string [(Field (Some "who"%string) 0%N (Some "T::AccountId"%string) []); (Field (Some "new_score"%string) 11%N (Some "T::Score"%string) [])] 1%N ["Updated the score of some account to the given amount."%string])]) ["The `Event` enum of this pallet"%string]).
Definition md_t435 : ty := (Ty ["pallet_nomination_pools"%string; "pallet"%string; "Event"%string] [("T"%string,None)] (TVariant [(Variant "Created"%string [(Field (Some "depositor"%string) 0%N (Some "T::AccountId"%string) []); (Field (Some "pool_id"%string) 4%N (Some "PoolId"%string) [])] 0%N ["A pool has been created."%string]); (Variant "Bonded"%string [(Field (Some "member"%string) 0%N (Some "T::AccountId"%string) []); (Field (Some "pool_id"%string) 4%N (Some "PoolId"%string) []); (Field (Some "bonded"%string) 6%N (Some "BalanceOf<T>"%string) []); (Field (Some "joined"%string) 44%N (Some "bool"%string) [])] 1%N ["A member has became bonded in a pool."%string]); (Variant "PaidOut"%string [(Field (Some "member"%string) 0%N (Some "T::AccountId"%string) []); (Field (Some "pool_id"%string) 4%N (Some "PoolId"%string) []); (Field (Some "payout"%string) 6%N (Some "BalanceOf<T>"%string) [])] 2%N ["A payout has been made to a member."%string]); (Variant "Unbonded"%string [(Field (Some "member"%string) 0%N (Some "T::AccountId"%string) []); (Field (Some "pool_id"%string) 4%N (Some "PoolId"%string) []); (Field (Some "balance"%string) 6%N (Some "BalanceOf<T>"%string) []); (Field (Some "points"%string) 6%N (Some "BalanceOf<T>"%string) []); (Field (Some "era"%string) 4%N (Some "EraIndex"%string) [])] 3%N ["A member has unbonded from their pool."%string; ""%string; "- `balance` is the corresponding balance of the number of points that has been"%string; "  requested to be unbonded (the argument of the `unbond` transaction) from the bonded"%string; "  pool."%string; "- `points` is the number of points that are issued as a result of `balance` being"%string; "dissolved into the corresponding unbonding pool."%string; "- `era` is the era in which the balance will be unbonded."%string; "In the absence of slashing, these values will match. In the presence of slashing, the"%string; "number of points that are issued in the unbonding pool will be less than the amount"%string; "requested to be unbonded."%string]); (Variant "Withdrawn"%string [(Field (Some "member"%string) 0%N (Some "T::AccountId"%string) []); (Field (Some "pool_id"%string) 4%N (Some "PoolId"%string) []); (Field (Some "balance"%string) 6%N (Some "BalanceOf<T>"%string) []); (Field (Some "points"%string) 6%N (Some "BalanceOf<T>"%string) [])] 4%N ["A member has withdrawn from their pool."%string; ""%string; "The given number of `points` have been dissolved in return of `balance`."%string; ""%string; "Similar to `Unbonded` event, in the absence of slashing, the ratio of point to balance"%string; "will be 1."%string]); (Variant "Destroyed"%string [(Field (Some "pool_id"%string) 4%N (Some "PoolId"%string) [])] 5%N ["A pool has been destroyed."%string]); (Variant "StateChanged"%string [(Field (Some "pool_id"%string) 4%N (Some "PoolId"%string) []); (Field (Some "new_state"%string) 274%N (Some "PoolState"%string) [])] 6%N ["The state of a pool has changed"%string]); (Variant "MemberRemoved"%string [(Field (Some "pool_id"%string) 4%N (Some "PoolId"%string) []); (Field (Some "member"%string) 0%N (Some "T::AccountId"%string) [])] 7%N ["A member has been removed from a pool."%string; ""%string; "The removal can be voluntary (withdrawn all unbonded funds) or involuntary (kicked)."%string]); (Variant "RolesUpdated"%string [(Field (Some "root"%string) 155%N (Some "Option<T::AccountId>"%string) []); (Field (Some "bouncer"%string) 155%N (Some "Option<T::AccountId>"%string) []); (Field (Some "nominator"%string) 155%N (Some "Option<T::AccountId>"%string) [])] 8%N ["The roles of a pool have been updated to the given new roles. Note that the depositor"%string; "can never change."%string]); (Variant "PoolSlashed"%string [(Field (Some "pool_id"%string) 4%N (Some "PoolId"%string) []); (Field (Some "balance"%string) 6%N (Some "BalanceOf<T>"%string) [])] 9%N ["The active balance of pool `pool_id` has been slashed to `balance`."%string]); (Variant "UnbondingPoolSlashed"%string [(Field (Some "pool_id"%string) 4%N (Some "PoolId"%string) []); (Field (Some "era"%string) 4%N (Some "EraIndex"%string) []); (Field (Some "balance"%string) 6%N (Some "BalanceOf<T>"%string) [])] 10%N ["The unbond pool at `era` of pool `pool_id` has been slashed to `balance`."%string]); (Variant "PoolCommissionUpdated"%string [(Field (Some "pool_id"%string) 4%N (Some "PoolId"%string) []); (Field (Some "current"%string) 280%N (Some "Option<(Perbill, T::AccountId)>"%string) [])] 11%N ["A pool's commission setting has been changed."%string]); (Variant "PoolMaxCommissionUpdated"%string [(Field (Some "pool_id"%string) 4%N (Some "PoolId"%string) []); (Field (Some "max_commission"%string) 41%N (Some "Perbill"%string) [])] 12%N ["A pool's maximum commission setting has been changed."%string]); (Variant "PoolCommissionChangeRateUpdated"%string [(Field (Some "pool_id"%string) 4%N (Some "PoolId"%string) []); (Field (Some "change_rate"%string) 282%N (Some "CommissionChangeRate<BlockNumberFor<T>>"%string) [])] 13%N ["A pool's commission `change_rate` has been changed."%string]); (Variant "PoolCommissionClaimed"%string [(Field (Some "pool_id"%string) 4%N (Some "PoolId"%string) []); (Field (Some "commission"%string) 6%N (Some "BalanceOf<T>"%string) [])] 14%N ["Pool commission has been claimed."%string])]) ["Events of this pallet."%string]).
Definition md_t436 : ty := (Ty ["pallet_fast_unstake"%string; "pallet"%string; "Event"%string] [("T"%string,None)] (TVariant [(Variant "Unstaked"%string [(Field (Some "stash"%string) 0%N (Some "T::AccountId"%string) []); (Field (Some "result"%string) 33%N (Some "DispatchResult"%string) [])] 0%N ["A staker was unstaked."%string]); (Variant "Slashed"%string [(Field (Some "stash"%string) 0%N (Some "T::AccountId"%string) []); (Field (Some "amount"%string) 6%N (Some "BalanceOf<T>"%string) [])] 1%N ["A staker was slashed for requesting fast-unstake whilst being exposed."%string]); (Variant "BatchChecked"%string [(Field (Some "eras"%string) 97%N (Some "Vec<EraIndex>"%string) [])] 2%N ["A batch was partially checked for the given eras, but the process did not finish."%string]); (Variant "BatchFinished"%string [(Field (Some "size"%string) 4%N (Some "u32"%string) [])] 3%N ["A batch of a given size was terminated."%string; ""%string; "This is always follows by a number of `Unstaked` or `Slashed` events, marking the end"%string; "of the batch. A new batch will be created upon next block."%string]); (Variant "InternalError"%string [] 4%N ["An internal error happened. Operations will be paused now."%string])]) ["The `Event` enum of this pallet"%string]).
Definition md_t437 : ty := (Ty ["polkadot_runtime_parachains"%string; "inclusion"%string; "pallet"%string; "Event"%string] [("T"%string,None)] (TVariant [(Variant "CandidateBacked"%string [(Field None 438%N (Some "CandidateReceipt<T::Hash>"%string) []); (Field None 316%N (Some "HeadData"%string) []); (Field None 439%N (Some "CoreIndex"%string) []); (Field None 440%N (Some "GroupIndex"%string) [])] 0%N ["A candidate was backed. `[candidate, head_data]`"%string]); (Variant "CandidateIncluded"%string [(Field None 438%N (Some "CandidateReceipt<T::Hash>"%string) []); (Field None 316%N (Some "HeadData"%string) []); (Field None 439%N (Some "CoreIndex"%string) []); (Field None 440%N (Some "GroupIndex"%string) [])] 1%N ["A candidate was included. `[candidate, head_data]`"%string]); (Variant "CandidateTimedOut"%string [(Field None 438%N (Some "CandidateReceipt<T::Hash>"%string) []); (Field None 316%N (Some "HeadData"%string) []); (Field None 439%N (Some "CoreIndex"%string) [])] 2%N ["A candidate timed out. `[candidate, head_data]`"%string]); (Variant "UpwardMessagesReceived"%string [(Field (Some "from"%string) 134%N (Some "ParaId"%string) []); (Field (Some "count"%string) 4%N (Some "u32"%string) [])] 3%N ["Some upward messages have been received and will be processed."%string])]) ["The `Event` enum of this pallet"%string]).
Definition md_t438 : ty := (Ty ["polkadot_primitives"%string; "v5"%string; "CandidateReceipt"%string] [("H"%string,(Some 12%N))] (TComposite [(Field (Some "descriptor"%string) 305%N (Some "CandidateDescriptor<H>"%string) []); (Field (Some "commitments_hash"%string) 12%N (Some "Hash"%string) [])]) []).
Definition md_t439 : ty := (Ty ["polkadot_primitives"%string; "v5"%string; "CoreIndex"%string] [] (TComposite [(Field None 4%N (Some "u32"%string) [])]) []).
Definition md_t440 : ty := (Ty ["polkadot_primitives"%string; "v5"%string; "GroupIndex"%string] [] (TComposite [(Field None 4%N (Some "u32"%string) [])]) []).
Definition md_t441 : ty := (Ty ["polkadot_runtime_parachains"%string; "paras"%string; "pallet"%string; "Event"%string] [] (TVariant [(Variant "CurrentCodeUpdated"%string [(Field None 134%N (Some "ParaId"%string) [])] 0%N ["Current code has been updated for a Para. `para_id`"%string]); (Variant "CurrentHeadUpdated"%string [(Field None 134%N (Some "ParaId"%string) [])] 1%N ["Current head has been updated for a Para. `para_id`"%string]); (Variant "CodeUpgradeScheduled"%string [(Field None 134%N (Some "ParaId"%string) [])] 2%N ["A code upgrade has been scheduled for a Para. `para_id`"%string]); (Variant "NewHeadNoted"%string [(Field None 134%N (Some "ParaId"%string) [])] 3%N ["A new head has been noted for a Para. `para_id`"%string]); (Variant "ActionQueued"%string [(Field None 134%N (Some "ParaId"%string) []); (Field None 4%N (Some "SessionIndex"%string) [])] 4%N ["A para has been queued to execute pending actions. `para_id`"%string]); (Variant "PvfCheckStarted"%string [(Field None 308%N (Some "ValidationCodeHash"%string) []); (Field None 134%N (Some "ParaId"%string) [])] 5%N ["The given para either initiated or subscribed to a PVF check for the given validation"%string; "code. `code_hash` `para_id`"%string]); (Variant "PvfCheckAccepted"%string [(Field None 308%N (Some "ValidationCodeHash"%string) []); (Field None 134%N (Some "ParaId"%string) [])] 6%N ["The given validation code was accepted by the PVF pre-checking vote."%string; "`code_hash` `para_id`"%string]); (Variant "PvfCheckRejected"%string [(Field None 308%N (Some "ValidationCodeHash"%string) []); (Field None 134%N (Some "ParaId"%string) [])] 7%N ["The given validation code was rejected by the PVF pre-checking vote."%string; "`code_hash` `para_id`"%string])]) ["The `Event` enum of this pallet"%string]).
Definition md_t442 : ty := (Ty ["polkadot_runtime_parachains"%string; "hrmp"%string; "pallet"%string; "Event"%string] [("T"%string,None)] (TVariant [(Variant "OpenChannelRequested"%string [(Field None 134%N (Some "ParaId"%string) []); (Field None 134%N (Some "ParaId"%string) []); (Field None 4%N (Some "u32"%string) []); (Field None 4%N (Some "u32"%string) [])] 0%N ["Open HRMP channel requested."%string; "`[sender, recipient, proposed_max_capacity, proposed_max_message_size]`"%string]); (Variant "OpenChannelCanceled"%string [(Field None 134%N (Some "ParaId"%string) []); (Field None 331%N (Some "HrmpChannelId"%string) [])] 1%N ["An HRMP channel request sent by the receiver was canceled by either party."%string; "`[by_parachain, channel_id]`"%string]); (Variant "OpenChannelAccepted"%string [(Field None 134%N (Some "ParaId"%string) []); (Field None 134%N (Some "ParaId"%string) [])] 2%N ["Open HRMP channel accepted. `[sender, recipient]`"%string]); (Variant "ChannelClosed"%string [(Field None 134%N (Some "ParaId"%string) []); (Field None 331%N (Some "HrmpChannelId"%string) [])] 3%N ["HRMP channel closed. `[by_parachain, channel_id]`"%string]); (Variant "HrmpChannelForceOpened"%string [(Field None 134%N (Some "ParaId"%string) []); (Field None 134%N (Some "ParaId"%string) []); (Field None 4%N (Some "u32"%string) []); (Field None 4%N (Some "u32"%string) [])] 4%N ["An HRMP channel was opened via Root origin."%string; "`[sender, recipient, proposed_max_capacity, proposed_max_message_size]`"%string])]) ["The `Event` enum of this pallet"%string]).
Definition md_t443 : ty := (Ty ["polkadot_runtime_parachains"%string; "disputes"%string; "pallet"%string; "Event"%string] [("T"%string,None)] (TVariant [(Variant "DisputeInitiated"%string [(Field None 321%N (Some "CandidateHash"%string) []); (Field None 444%N (Some "DisputeLocation"%string) [])] 0%N ["A dispute has been initiated. \[candidate hash, dispute location\]"%string]); (Variant "DisputeConcluded"%string [(Field None 321%N (Some "CandidateHash"%string) []); (Field None 445%N (Some "DisputeResult"%string) [])] 1%N ["A dispute has concluded for or against a candidate."%string; "`\[para id, candidate hash, dispute result\]`"%string]); (Variant "Revert"%string [(Field None 4%N (Some "BlockNumberFor<T>"%string) [])] 2%N ["A dispute has concluded with supermajority against a candidate."%string; "Block authors should no longer build on top of this head and should"%string; "instead revert the block at the given height. This should be the"%string; "number of the child of the last known valid block in the chain."%string])]) ["The `Event` enum of this pallet"%string]).
Definition md_t444 : ty := (Ty ["polkadot_runtime_parachains"%string; "disputes"%string; "DisputeLocation"%string] [] (TVariant [(Variant "Local"%string [] 0%N []); (Variant "Remote"%string [] 1%N [])]) []).
Definition md_t445 : ty := (Ty ["polkadot_runtime_parachains"%string; "disputes"%string; "DisputeResult"%string] [] (TVariant [(Variant "Valid"%string [] 0%N []); (Variant "Invalid"%string [] 1%N [])]) []).
Definition md_t446 : ty := (Ty ["polkadot_runtime_common"%string; "paras_registrar"%string; "pallet"%string; "Event"%string] [("T"%string,None)] (TVariant [(Variant "Registered"%string [(Field (Some "para_id"%string) 134%N (Some "ParaId"%string) []); (Field (Some "manager"%string) 0%N (Some "T::AccountId"%string) [])] 0%N []); (Variant "Deregistered"%string [(Field (Some "para_id"%string) 134%N (Some "ParaId"%string) [])] 1%N []); (Variant "Reserved"%string [(Field (Some "para_id"%string) 134%N (Some "ParaId"%string) []); (Field (Some "who"%string) 0%N (Some "T::AccountId"%string) [])] 2%N []); (Variant "Swapped"%string [(Field (Some "para_id"%string) 134%N (Some "ParaId"%string) []); (Field (Some "other_id"%string) 134%N (Some "ParaId"%string) [])] 3%N [])]) ["The `Event` enum of this pallet"%string]).
Definition md_t447 : ty := (Ty ["polkadot_runtime_common"%string; "slots"%string; "pallet"%string; "Event"%string] [("T"%string,None)] (TVariant [(Variant "NewLeasePeriod"%string [(Field (Some "lease_period"%string) 4%N (Some "LeasePeriodOf<T>"%string) [])] 0%N ["A new `[lease_period]` is beginning."%string]); (Variant "Leased"%string [(Field (Some "para_id"%string) 134%N (Some "ParaId"%string) []); (Field (Some "leaser"%string) 0%N (Some "T::AccountId"%string) []); (Field (Some "period_begin"%string) 4%N (Some "LeasePeriodOf<T>"%string) []); (Field (Some "period_count"%string) 4%N (Some "LeasePeriodOf<T>"%string) []); (Field (Some "extra_reserved"%string) 6%N (Some "BalanceOf<T>"%string) []); (Field (Some "total_amount"%string) 6%N (Some "BalanceOf<T>"%string) [])] 1%N ["A para has won the right to a continuous set of lease periods as a parachain."%string; "First balance is any extra amount reserved on top of the para's existing deposit."%string; "Second balance is the total amount reserved."%string])]) ["The `Event` enum of this pallet"%string]).
Definition md_t448 : ty := (Ty ["polkadot_runtime_common"%string; "auctions"%string; "pallet"%string; "Event"%string] [("T"%string,None)] (TVariant [(Variant "AuctionStarted"%string [(Field (Some "auction_index"%string) 4%N (Some "AuctionIndex"%string) []); (Field (Some "lease_period"%string) 4%N (Some "LeasePeriodOf<T>"%string) []); (Field (Some "ending"%string) 4%N (Some "BlockNumberFor<T>"%string) [])] 0%N ["An auction started. Provides its index and the block number where it will begin to"%string; "close and the first lease period of the quadruplet that is auctioned."%string]); (Variant "AuctionClosed"%string [(Field (Some "auction_index"%string) 4%N (Some "AuctionIndex"%string) [])] 1%N ["An auction ended. All funds become unreserved."%string]); (Variant "Reserved"%string [(Field (Some "bidder"%string) 0%N (Some "T::AccountId"%string) []); (Field (Some "extra_reserved"%string) 6%N (Some "BalanceOf<T>"%string) []); (Field (Some "total_amount"%string) 6%N (Some "BalanceOf<T>"%string) [])] 2%N ["Funds were reserved for a winning bid. First balance is the extra amount reserved."%string; "Second is the total."%string]); (Variant "Unreserved"%string [(Field (Some "bidder"%string) 0%N (Some "T::AccountId"%string) []); (Field (Some "amount"%string) 6%N (Some "BalanceOf<T>"%string) [])] 3%N ["Funds were unreserved since bidder is no longer active. `[bidder, amount]`"%string]); (Variant "ReserveConfiscated"%string [(Field (Some "para_id"%string) 134%N (Some "ParaId"%string) []); (Field (Some "leaser"%string) 0%N (Some "T::AccountId"%string) []); (Field (Some "amount"%string) 6%N (Some "BalanceOf<T>"%string) [])] 4%N ["Someone attempted to lease the same slot twice for a parachain. The amount is held in"%string; "reserve but no parachain slot has been leased."%string]); (Variant "BidAccepted"%string [(Field (Some "bidder"%string) 0%N (Some "T::AccountId"%string) []); (Field (Some "para_id"%string) 134%N (Some "ParaId"%string) []); (Field (Some "amount"%string) 6%N (Some "BalanceOf<T>"%string) []); (Field (Some "first_slot"%string) 4%N (Some "LeasePeriodOf<T>"%string) []); (Field (Some "last_slot"%string) 4%N (Some "LeasePeriodOf<T>"%string) [])] 5%N ["A new bid has been accepted as the current winner."%string]); (Variant "WinningOffset"%string [(Field (Some "auction_index"%string) 4%N (Some "AuctionIndex"%string) []); (Field (Some "block_number"%string) 4%N (Some "BlockNumberFor<T>"%string) [])] 6%N ["The winning offset was chosen for an auction. This will map into the `Winning` storage"%string; "map."%string])]) ["The `Event` enum of this pallet"%string]).
Definition md_t449 : ty := (Ty ["polkadot_runtime_common"%string; "crowdloan"%string; "pallet"%string; "Event"%string] [("T"%string,None)] (TVariant [(Variant "Created"%string [(Field (Some "para_id"%string) 134%N (Some "ParaId"%string) [])] 0%N ["Create a new crowdloaning campaign."%string]); (Variant "Contributed"%string [(Field (Some "who"%string) 0%N (Some "T::AccountId"%string) []); (Field (Some "fund_index"%string) 134%N (Some "ParaId"%string) []); (Field (Some "amount"%string) 6%N (Some "BalanceOf<T>"%string) [])] 1%N ["Contributed to a crowd sale."%string]); (Variant "Withdrew"%string [(Field (Some "who"%string) 0%N (Some "T::AccountId"%string) []); (Field (Some "fund_index"%string) 134%N (Some "ParaId"%string) []); (Field (Some "amount"%string) 6%N (Some "BalanceOf<T>"%string) [])] 2%N ["Withdrew full balance of a contributor."%string]); (Variant "PartiallyRefunded"%string [(Field (Some "para_id"%string) 134%N (Some "ParaId"%string) [])] 3%N ["The loans in a fund have been partially dissolved, i.e. there are some left"%string; "over child keys that still need to be killed."%string]); (Variant "AllRefunded"%string [(Field (Some "para_id"%string) 134%N (Some "ParaId"%string) [])] 4%N ["All loans in a fund have been refunded."%string]); (Variant "Dissolved"%string [(Field (Some "para_id"%string) 134%N (Some "ParaId"%string) [])] 5%N ["Fund is dissolved."%string]); (Variant "HandleBidResult"%string [(Field (Some "para_id"%string) 134%N (Some "ParaId"%string) []); (Field (Some "result"%string) 33%N (Some "DispatchResult"%string) [])] 6%N ["The result of trying to submit a new bid to the Slots pallet."%string]); (Variant "Edited"%string [(Field (Some "para_id"%string) 134%N (Some "ParaId"%string) [])] 7%N ["The configuration to a crowdloan has been edited."%string]); (Variant "MemoUpdated"%string [(Field (Some "who"%string) 0%N (Some "T::AccountId"%string) []); (Field (Some "para_id"%string) 134%N (Some "ParaId"%string) []); (Field (Some "memo"%string) 13%N (Some "Vec<u8>"%string) [])] 8%N ["A memo has been updated."%string]); (Variant "AddedToNewRaise"%string [(Field (Some "para_id"%string) 134%N (Some "ParaId"%string) [])] 9%N ["A parachain has been moved to `NewRaise`"%string])]) ["The `Event` enum of this pallet"%string]).
Definition md_t450 : ty := (Ty ["pallet_xcm"%string; "pallet"%string; "Event"%string] [("T"%string,None)] (TVariant [(Variant "Attempted"%string [(Field (Some "outcome"%string) 451%N (Some "xcm::latest::Outcome"%string) [])] 0%N ["Execution of an XCM message was attempted."%string]); (Variant "Sent"%string [(Field (Some "origin"%string) 136%N (Some "MultiLocation"%string) []); (Field (Some "destination"%string) 136%N (Some "MultiLocation"%string) []); (Field (Some "message"%string) 378%N (Some "Xcm<()>"%string) []); (Field (Some "message_id"%string) 1%N (Some "XcmHash"%string) [])] 1%N ["A XCM message was sent."%string]); (Variant "UnexpectedResponse"%string [(Field (Some "origin"%string) 136%N (Some "MultiLocation"%string) []); (Field (Some "query_id"%string) 11%N (Some "QueryId"%string) [])] 2%N ["Query response received which does not match a registered query. This may be because a"%string; "matching query was never registered, it may be because it is a duplicate response, or"%string; "because the query timed out."%string]); (Variant "ResponseReady"%string [(Field (Some "query_id"%string) 11%N (Some "QueryId"%string) []); (Field (Some "response"%string) 387%N (Some "Response"%string) [])] 3%N ["Query response has been received and is ready for taking with `take_response`. There is"%string; "no registered notification call."%string]); (Variant "Notified"%string [(Field (Some "query_id"%string) 11%N (Some "QueryId"%string) []); (Field (Some "pallet_index"%string) 2%N (Some "u8"%string) []); (Field (Some "call_index"%string) 2%N (Some "u8"%string) [])] 4%N ["Query response has been received and query is removed. The registered notification has"%string; "been dispatched and executed successfully."%string]); (Variant "NotifyOverweight"%string [(Field (Some "query_id"%string) 11%N (Some "QueryId"%string) []); (Field (Some "pallet_index"%string) 2%N (Some "u8"%string) []); (Field (Some "call_index"%string) 2%N (Some "u8"%string) []); (Field (Some "actual_weight"%string) 9%N (Some "Weight"%string) []); (Field (Some "max_budgeted_weight"%string) 9%N (Some "Weight"%string) [])] 5%N ["Query response has been received and query is removed. The registered notification"%string; "could not be dispatched because the dispatch weight is greater than the maximum weight"%string; "originally budgeted by this runtime for the query result."%string]); (Variant "NotifyDispatchError"%string [(Field (Some "query_id"%string) 11%N (Some "QueryId"%string) []); (Field (Some "pallet_index"%string) 2%N (Some "u8"%string) []); (Field (Some "call_index"%string) 2%N (Some "u8"%string) [])] 6%N ["Query response has been received and query is removed. There was a general error with"%string; "dispatching the notification call."%string]); (Variant "NotifyDecodeFailed"%string [(Field (Some "query_id"%string) 11%N (Some "QueryId"%string) []); (Field (Some "pallet_index"%string) 2%N (Some "u8"%string) []); (Field (Some "call_index"%string) 2%N (Some "u8"%string) [])] 7%N ["Query response has been received and query is removed. The dispatch was unable to be"%string; "decoded into a `Call`; this might be due to dispatch function having a signature which"%string; "is not `(origin, QueryId, Response)`."%string]); (Variant "InvalidResponder"%string [(Field (Some "origin"%string) 136%N (Some "MultiLocation"%string) []); (Field (Some "query_id"%string) 11%N (Some "QueryId"%string) []); (Field (Some "expected_location"%string) 397%N (Some "Option<MultiLocation>"%string) [])] 8%N ["Expected query response has been received but the origin location of the response does"%string; "not match that expected. The query remains registered for a later, valid, response to"%string; "be received and acted upon."%string]); (Variant "InvalidResponderVersion"%string [(Field (Some "origin"%string) 136%N (Some "MultiLocation"%string) []); (Field (Some "query_id"%string) 11%N (Some "QueryId"%string) [])] 9%N ["Expected query response has been received but the expected origin location placed in"%string; "storage by this runtime previously cannot be decoded. The query remains registered."%string; ""%string; "This is unexpected (since a location placed in storage in a previously executing"%string; "runtime should be readable prior to query timeout) and dangerous since the possibly"%string; "valid response will be dropped. Manual governance intervention is probably going to be"%string; "needed."%string]); (Variant "ResponseTaken"%string [(Field (Some "query_id"%string) 11%N (Some "QueryId"%string) [])] 10%N ["Received query response has been read and removed."%string]); (Variant "AssetsTrapped"%string [(Field (Some "hash"%string) 12%N (Some "H256"%string) []); (Field (Some "origin"%string) 136%N (Some "MultiLocation"%string) []); (Field (Some "assets"%string) 403%N (Some "VersionedMultiAssets"%string) [])] 11%N ["Some assets have been placed in an asset trap."%string]); (Variant "VersionChangeNotified"%string [(Field (Some "destination"%string) 136%N (Some "MultiLocation"%string) []); (Field (Some "result"%string) 4%N (Some "XcmVersion"%string) []); (Field (Some "cost"%string) 381%N (Some "MultiAssets"%string) []); (Field (Some "message_id"%string) 1%N (Some "XcmHash"%string) [])] 12%N ["An XCM version change notification message has been attempted to be sent."%string; ""%string; "The cost of sending it (borne by the chain) is included."%string]); (Variant "SupportedVersionChanged"%string [(Field (Some "location"%string) 136%N (Some "MultiLocation"%string) []); (Field (Some "version"%string) 4%N (Some "XcmVersion"%string) [])] 13%N ["The supported version of a location has been changed. This might be through an"%string; "automatic notification or a manual intervention."%string]); (Variant "NotifyTargetSendFail"%string [(Field (Some "location"%string) 136%N (Some "MultiLocation"%string) []); (Field (Some "query_id"%string) 11%N (Some "QueryId"%string) []); (Field (Some "error"%string) 390%N (Some "XcmError"%string) [])] 14%N ["A given location which had a version change subscription was dropped owing to an error"%string; "sending the notification to it."%string]); (Variant "NotifyTargetMigrationFail"%string [(Field (Some "location"%string) 350%N (Some "VersionedMultiLocation"%string) []); (Field (Some "query_id"%string) 11%N (Some "QueryId"%string) [])] 15%N ["A given location which had a version change subscription was dropped owing to an error"%string; "migrating the location to our new XCM format."%string]); (Variant "InvalidQuerierVersion"%string [(Field (Some "origin"%string) 136%N (Some "MultiLocation"%string) []); (Field (Some "query_id"%string) 11%N (Some "QueryId"%string) [])] 16%N ["Expected query response has been received but the expected querier location placed in"%string; "storage by this runtime previously cannot be decoded. The query remains registered."%string; ""%string; "This is unexpected (since a location placed in storage in a previously executing"%string; "runtime should be readable prior to query timeout) and dangerous since the possibly"%string; "valid response will be dropped. Manual governance intervention is probably going to be"%string; "needed."%string]); (Variant "InvalidQuerier"%string [(Field (Some "origin"%string) 136%N (Some "MultiLocation"%string) []); (Field (Some "query_id"%string) 11%N (Some "QueryId"%string) []); (Field (Some "expected_querier"%string) 136%N (Some "MultiLocation"%string) []); (Field (Some "maybe_actual_querier"%string) 397%N (Some "Option<MultiLocation>"%string) [])] 17%N ["Expected query response has been received but the querier location of the response does"%string; "not match the expected. The query remains registered for a later, valid, response to"%string; "be received and acted upon."%string]); (Variant "VersionNotifyStarted"%string [(Field (Some "destination"%string) 136%N (Some "MultiLocation"%string) []); (Field (Some "cost"%string) 381%N (Some "MultiAssets"%string) []); (Field (Some "message_id"%string) 1%N (Some "XcmHash"%string) [])] 18%N ["A remote has requested XCM version change notification from us and we have honored it."%string; "A version information message is sent to them and its cost is included."%string]); (Variant "VersionNotifyRequested"%string [(Field (Some "destination"%string) 136%N (Some "MultiLocation"%string) []); (Field (Some "cost"%string) 381%N (Some "MultiAssets"%string) []); (Field (Some "message_id"%string) 1%N (Some "XcmHash"%string) [])] 19%N ["We have requested that a remote chain send us XCM version change notifications."%string]); (Variant "VersionNotifyUnrequested"%string [(Field (Some "destination"%string) 136%N (Some "MultiLocation"%string) []); (Field (Some "cost"%string) 381%N (Some "MultiAssets"%string) []); (Field (Some "message_id"%string) 1%N (Some "XcmHash"%string) [])] 20%N ["We have requested that a remote chain stops sending us XCM version change"%string; "notifications."%string]); (Variant "FeesPaid"%string [(Field (Some "paying"%string) 136%N (Some "MultiLocation"%string) []); (Field (Some "fees"%string) 381%N (Some "MultiAssets"%string) [])] 21%N ["Fees were paid from a location for an operation (often for using `SendXcm`)."%string]); (Variant "AssetsClaimed"%string [(Field (Some "hash"%string) 12%N (Some "H256"%string) []); (Field (Some "origin"%string) 136%N (Some "MultiLocation"%string) []); (Field (Some "assets"%string) 403%N (Some "VersionedMultiAssets"%string) [])] 22%N ["Some assets have been claimed from an asset trap"%string])]) ["The `Event` enum of this pallet"%string]).
Definition md_t451 : ty := (Ty ["xcm"%string; "v3"%string; "traits"%string; "Outcome"%string] [] (TVariant [(Variant "Complete"%string [(Field None 9%N (Some "Weight"%string) [])] 0%N []); (Variant "Incomplete"%string [(Field None 9%N (Some "Weight"%string) []); (Field None 390%N (Some "Error"%string) [])] 1%N []); (Variant "Error"%string [(Field None 390%N (Some "Error"%string) [])] 2%N [])]) []).
Definition md_t452 : ty := (Ty ["pallet_message_queue"%string; "pallet"%string; "Event"%string] [("T"%string,None)] (TVariant [(Variant "ProcessingFailed"%string [(Field (Some "id"%string) 1%N (Some "[u8; 32]"%string) []); (Field (Some "origin"%string) 413%N (Some "MessageOriginOf<T>"%string) []); (Field (Some "error"%string) 453%N (Some "ProcessMessageError"%string) [])] 0%N ["Message discarded due to an error in the `MessageProcessor` (usually a format error)."%string]); (Variant "Processed"%string [(Field (Some "id"%string) 1%N (Some "[u8; 32]"%string) []); (Field (Some "origin"%string) 413%N (Some "MessageOriginOf<T>"%string) []); (Field (Some "weight_used"%string) 9%N (Some "Weight"%string) []); (Field (Some "success"%string) 44%N (Some "bool"%string) [])] 1%N ["Message is processed."%string]); (Variant "OverweightEnqueued"%string [(Field (Some "id"%string) 1%N (Some "[u8; 32]"%string) []); (Field (Some "origin"%string) 413%N (Some "MessageOriginOf<T>"%string) []); (Field (Some "page_index"%string) 4%N (Some "PageIndex"%string) []); (Field (Some "message_index"%string) 4%N (Some "T::Size"%string) [])] 2%N ["Message placed in overweight queue."%string]); (Variant "PageReaped"%string [(Field (Some "origin"%string) 413%N (Some "MessageOriginOf<T>"%string) []); (Field (Some "index"%string) 4%N (Some "PageIndex"%string) [])] 3%N ["This page was reaped."%string])]) ["The `Event` enum of this pallet"%string]).
Definition md_t453 : ty := (Ty ["frame_support"%string; "traits"%string; "messages"%string; "ProcessMessageError"%string] [] (TVariant [(Variant "BadFormat"%string [] 0%N []); (Variant "Corrupt"%string [] 1%N []); (Variant "Unsupported"%string [] 2%N []); (Variant "Overweight"%string [(Field None 9%N (Some "Weight"%string) [])] 3%N []); (Variant "Yield"%string [] 4%N [])]) []).
Definition md_t454 : ty := (Ty ["frame_system"%string; "Phase"%string] [] (TVariant [(Variant "ApplyExtrinsic"%string [(Field None 4%N (Some "u32"%string) [])] 0%N []); (Variant "Finalization"%string [] 1%N []); (Variant "Initialization"%string [] 2%N [])]) []).
Definition md_t455 : ty := (Ty [] [] (TSequence 12%N) []).
Definition md_t456 : ty := (Ty [] [] (TSequence 31%N) []).
Definition md_t457 : ty := (Ty ["frame_system"%string; "LastRuntimeUpgradeInfo"%string] [] (TComposite [(Field (Some "spec_version"%string) 79%N (Some "codec::Compact<u32>"%string) []); (Field (Some "spec_name"%string) 458%N (Some "sp_runtime::RuntimeString"%string) [])]) []).
Definition md_t458 : ty := (Ty [] [] (TPrimitive PrStr) []).
Definition md_t459 : ty := (Ty ["frame_system"%string; "limits"%string; "BlockWeights"%string] [] (TComposite [(Field (Some "base_block"%string) 9%N (Some "Weight"%string) []); (Field (Some "max_block"%string) 9%N (Some "Weight"%string) []); (Field (Some "per_class"%string) 460%N (Some "PerDispatchClass<WeightsPerClass>"%string) [])]) []).
Definition md_t460 : ty := (Ty ["frame_support"%string; "dispatch"%string; "PerDispatchClass"%string] [("T"%string,(Some 461%N))] (TComposite [(Field (Some "normal"%string) 461%N (Some "T"%string) []); (Field (Some "operational"%string) 461%N (Some "T"%string) []); (Field (Some "mandatory"%string) 461%N (Some "T"%string) [])]) []).
Definition md_t461 : ty := (Ty ["frame_system"%string; "limits"%string; "WeightsPerClass"%string] [] (TComposite [(Field (Some "base_extrinsic"%string) 9%N (Some "Weight"%string) []); (Field (Some "max_extrinsic"%string) 420%N (Some "Option<Weight>"%string) []); (Field (Some "max_total"%string) 420%N (Some "Option<Weight>"%string) []); (Field (Some "reserved"%string) 420%N (Some "Option<Weight>"%string) [])]) []).
Definition md_t462 : ty := (Ty ["frame_system"%string; "limits"%string; "BlockLength"%string] [] (TComposite [(Field (Some "max"%string) 463%N (Some "PerDispatchClass<u32>"%string) [])]) []).
Definition md_t463 : ty := (Ty ["frame_support"%string; "dispatch"%string; "PerDispatchClass"%string] [("T"%string,(Some 4%N))] (TComposite [(Field (Some "normal"%string) 4%N (Some "T"%string) []); (Field (Some "operational"%string) 4%N (Some "T"%string) []); (Field (Some "mandatory"%string) 4%N (Some "T"%string) [])]) []).
Definition md_t464 : ty := (Ty ["sp_weights"%string; "RuntimeDbWeight"%string] [] (TComposite [(Field (Some "read"%string) 11%N (Some "u64"%string) []); (Field (Some "write"%string) 11%N (Some "u64"%string) [])]) []).
Definition md_t465 : ty := (Ty ["sp_version"%string; "RuntimeVersion"%string] [] (TComposite [(Field (Some "spec_name"%string) 458%N (Some "RuntimeString"%string) []); (Field (Some "impl_name"%string) 458%N (Some "RuntimeString"%string) []); (Field (Some "authoring_version"%string) 4%N (Some "u32"%string) []); (Field (Some "spec_version"%string) 4%N (Some "u32"%string) []); (Field (Some "impl_version"%string) 4%N (Some "u32"%string) []); (Field (Some "apis"%string) 466%N (Some "ApisVec"%string) []); (Field (Some "transaction_version"%string) 4%N (Some "u32"%string) []); (Field (Some "state_version"%string) 2%N (Some "u8"%string) [])]) []).
Definition md_t466 : ty := (Ty ["Cow"%string] [("T"%string,(Some 467%N))] (TComposite [(Field None 467%N None [])]) []).
Definition md_t467 : ty := (Ty [] [] (TSequence 468%N) []).
Definition md_t468 : ty := (Ty [] [] (TTuple [172%N; 4%N]) []).
Definition md_t469 : ty := (Ty ["frame_system"%string; "pallet"%string; "Error"%string] [("T"%string,None)] (TVariant [(Variant "InvalidSpecName"%string [] 0%N ["The name of specification does not match between the current runtime"%string; "and the new runtime."%string]); (Variant "SpecVersionNeedsToIncrease"%string [] 1%N ["The specification version is not allowed to decrease between the current runtime"%string; "and the new runtime."%string]); (Variant "FailedToExtractRuntimeVersion"%string [] 2%N ["Failed to extract the runtime version from the new runtime."%string; ""%string; "Either calling `Core_version` or decoding `RuntimeVersion` failed."%string]); (Variant "NonDefaultComposite"%string [] 3%N ["Suicide called when the account has non-default composite data."%string]); (Variant "NonZeroRefCount"%string [] 4%N ["There is a non-zero reference count preventing the account from being purged."%string]); (Variant "CallFiltered"%string [] 5%N ["The origin filter prevent the call to be dispatched."%string])]) ["Error for the System pallet"%string]).
Definition md_t470 : ty := (Ty ["bounded_collections"%string; "bounded_vec"%string; "BoundedVec"%string] [("T"%string,(Some 471%N)); ("S"%string,None)] (TComposite [(Field None 473%N (Some "Vec<T>"%string) [])]) []).
Definition md_t471 : ty := (Ty ["Option"%string] [("T"%string,(Some 472%N))] (TVariant [(Variant "None"%string [] 0%N []); (Variant "Some"%string [(Field None 472%N None [])] 1%N [])]) []).
Definition md_t472 : ty := (Ty ["pallet_scheduler"%string; "Scheduled"%string] [("Name"%string,(Some 1%N)); ("Call"%string,(Some 67%N)); ("BlockNumber"%string,(Some 4%N)); ("PalletsOrigin"%string,(Some 130%N)); ("AccountId"%string,(Some 0%N))] (TComposite [(Field (Some "maybe_id"%string) 32%N (Some "Option<Name>"%string) []); (Field (Some "priority"%string) 2%N (Some "schedule::Priority"%string) []); (Field (Some "call"%string) 67%N (Some "Call"%string) []); (Field (Some "maybe_periodic"%string) 74%N (Some "Option<schedule::Period<BlockNumber>>"%string) []); (Field (Some "origin"%string) 130%N (Some "PalletsOrigin"%string) [])]) []).
Definition md_t473 : ty := (Ty [] [] (TSequence 471%N) []).
Definition md_t474 : ty := (Ty ["pallet_scheduler"%string; "pallet"%string; "Error"%string] [("T"%string,None)] (TVariant [(Variant "FailedToSchedule"%string [] 0%N ["Failed to schedule a call"%string]); (Variant "NotFound"%string [] 1%N ["Cannot find the scheduled call."%string]); (Variant "TargetBlockNumberInPast"%string [] 2%N ["Given target block number is in the past."%string]); (Variant "RescheduleNoChange"%string [] 3%N ["Reschedule failed because it does not change scheduled time."%string]); (Variant "Named"%string [] 4%N ["Attempt to use a non-named function on a named task."%string])]) ["The `Error` enum of this pallet."%string]).
Definition md_t475 : ty := (Ty ["pallet_preimage"%string; "RequestStatus"%string] [("AccountId"%string,(Some 0%N)); ("Balance"%string,(Some 6%N))] (TVariant [(Variant "Unrequested"%string [(Field (Some "deposit"%string) 269%N (Some "(AccountId, Balance)"%string) []); (Field (Some "len"%string) 4%N (Some "u32"%string) [])] 0%N []); (Variant "Requested"%string [(Field (Some "deposit"%string) 476%N (Some "Option<(AccountId, Balance)>"%string) []); (Field (Some "count"%string) 4%N (Some "u32"%string) []); (Field (Some "len"%string) 270%N (Some "Option<u32>"%string) [])] 1%N [])]) []).
Definition md_t476 : ty := (Ty ["Option"%string] [("T"%string,(Some 269%N))] (TVariant [(Variant "None"%string [] 0%N []); (Variant "Some"%string [(Field None 269%N None [])] 1%N [])]) []).
Definition md_t477 : ty := (Ty [] [] (TTuple [12%N; 4%N]) []).
Definition md_t478 : ty := (Ty ["bounded_collections"%string; "bounded_vec"%string; "BoundedVec"%string] [("T"%string,(Some 2%N)); ("S"%string,None)] (TComposite [(Field None 13%N (Some "Vec<T>"%string) [])]) []).
Definition md_t479 : ty := (Ty ["pallet_preimage"%string; "pallet"%string; "Error"%string] [("T"%string,None)] (TVariant [(Variant "TooBig"%string [] 0%N ["Preimage is too large to store on-chain."%string]); (Variant "AlreadyNoted"%string [] 1%N ["Preimage has already been noted on-chain."%string]); (Variant "NotAuthorized"%string [] 2%N ["The user is not authorized to perform this action."%string]); (Variant "NotNoted"%string [] 3%N ["The preimage cannot be removed since it has not yet been noted."%string]); (Variant "Requested"%string [] 4%N ["A preimage may not be removed when there are outstanding requests."%string]); (Variant "NotRequested"%string [] 5%N ["The preimage request cannot be removed since no outstanding requests exist."%string])]) ["The `Error` enum of this pallet."%string]).
Definition md_t480 : ty := (Ty ["bounded_collections"%string; "weak_bounded_vec"%string; "WeakBoundedVec"%string] [("T"%string,(Some 481%N)); ("S"%string,None)] (TComposite [(Field None 482%N (Some "Vec<T>"%string) [])]) []).
Definition md_t481 : ty := (Ty [] [] (TTuple [80%N; 11%N]) []).
Definition md_t482 : ty := (Ty [] [] (TSequence 481%N) []).
Definition md_t483 : ty := (Ty ["bounded_collections"%string; "bounded_vec"%string; "BoundedVec"%string] [("T"%string,(Some 1%N)); ("S"%string,None)] (TComposite [(Field None 484%N (Some "Vec<T>"%string) [])]) []).
Definition md_t484 : ty := (Ty [] [] (TSequence 1%N) []).
Definition md_t485 : ty := (Ty ["Option"%string] [("T"%string,(Some 486%N))] (TVariant [(Variant "None"%string [] 0%N []); (Variant "Some"%string [(Field None 486%N None [])] 1%N [])]) []).
Definition md_t486 : ty := (Ty ["sp_consensus_babe"%string; "digests"%string; "PreDigest"%string] [] (TVariant [(Variant "Primary"%string [(Field None 487%N (Some "PrimaryPreDigest"%string) [])] 1%N []); (Variant "SecondaryPlain"%string [(Field None 489%N (Some "SecondaryPlainPreDigest"%string) [])] 2%N []); (Variant "SecondaryVRF"%string [(Field None 490%N (Some "SecondaryVRFPreDigest"%string) [])] 3%N [])]) []).
Definition md_t487 : ty := (Ty ["sp_consensus_babe"%string; "digests"%string; "PrimaryPreDigest"%string] [] (TComposite [(Field (Some "authority_index"%string) 4%N (Some "super::AuthorityIndex"%string) []); (Field (Some "slot"%string) 81%N (Some "Slot"%string) []); (Field (Some "vrf_signature"%string) 488%N (Some "VrfSignature"%string) [])]) []).
Definition md_t488 : ty := (Ty ["sp_core"%string; "sr25519"%string; "vrf"%string; "VrfSignature"%string] [] (TComposite [(Field (Some "output"%string) 1%N (Some "VrfOutput"%string) []); (Field (Some "proof"%string) 114%N (Some "VrfProof"%string) [])]) []).
Definition md_t489 : ty := (Ty ["sp_consensus_babe"%string; "digests"%string; "SecondaryPlainPreDigest"%string] [] (TComposite [(Field (Some "authority_index"%string) 4%N (Some "super::AuthorityIndex"%string) []); (Field (Some "slot"%string) 81%N (Some "Slot"%string) [])]) []).
Definition md_t490 : ty := (Ty ["sp_consensus_babe"%string; "digests"%string; "SecondaryVRFPreDigest"%string] [] (TComposite [(Field (Some "authority_index"%string) 4%N (Some "super::AuthorityIndex"%string) []); (Field (Some "slot"%string) 81%N (Some "Slot"%string) []); (Field (Some "vrf_signature"%string) 488%N (Some "VrfSignature"%string) [])]) []).
Definition md_t491 : ty := (Ty ["sp_consensus_babe"%string; "BabeEpochConfiguration"%string] [] (TComposite [(Field (Some "c"%string) 84%N (Some "(u64, u64)"%string) []); (Field (Some "allowed_slots"%string) 85%N (Some "AllowedSlots"%string) [])]) []).
Definition md_t492 : ty := (Ty ["bounded_collections"%string; "bounded_vec"%string; "BoundedVec"%string] [("T"%string,(Some 493%N)); ("S"%string,None)] (TComposite [(Field None 494%N (Some "Vec<T>"%string) [])]) []).
Definition md_t493 : ty := (Ty [] [] (TTuple [11%N; 4%N]) []).
Definition md_t494 : ty := (Ty [] [] (TSequence 493%N) []).
Definition md_t495 : ty := (Ty ["pallet_babe"%string; "pallet"%string; "Error"%string] [("T"%string,None)] (TVariant [(Variant "InvalidEquivocationProof"%string [] 0%N ["An equivocation proof provided as part of an equivocation report is invalid."%string]); (Variant "InvalidKeyOwnershipProof"%string [] 1%N ["A key ownership proof provided as part of an equivocation report is invalid."%string]); (Variant "DuplicateOffenceReport"%string [] 2%N ["A given equivocation report is valid but already previously reported."%string]); (Variant "InvalidConfiguration"%string [] 3%N ["Submitted configuration is invalid."%string])]) ["The `Error` enum of this pallet."%string]).
Definition md_t496 : ty := (Ty [] [] (TTuple [0%N; 6%N; 44%N]) []).
Definition md_t497 : ty := (Ty ["pallet_indices"%string; "pallet"%string; "Error"%string] [("T"%string,None)] (TVariant [(Variant "NotAssigned"%string [] 0%N ["The index was not already assigned."%string]); (Variant "NotOwner"%string [] 1%N ["The index is assigned to another account."%string]); (Variant "InUse"%string [] 2%N ["The index was not available."%string]); (Variant "NotTransfer"%string [] 3%N ["The source and destination accounts are identical."%string]); (Variant "Permanent"%string [] 4%N ["The index is permanent and may not be freed/changed."%string])]) ["The `Error` enum of this pallet."%string]).
Definition md_t498 : ty := (Ty ["bounded_collections"%string; "weak_bounded_vec"%string; "WeakBoundedVec"%string] [("T"%string,(Some 499%N)); ("S"%string,None)] (TComposite [(Field None 501%N (Some "Vec<T>"%string) [])]) []).
Definition md_t499 : ty := (Ty ["pallet_balances"%string; "types"%string; "BalanceLock"%string] [("Balance"%string,(Some 6%N))] (TComposite [(Field (Some "id"%string) 172%N (Some "LockIdentifier"%string) []); (Field (Some "amount"%string) 6%N (Some "Balance"%string) []); (Field (Some "reasons"%string) 500%N (Some "Reasons"%string) [])]) []).
Definition md_t500 : ty := (Ty ["pallet_balances"%string; "types"%string; "Reasons"%string] [] (TVariant [(Variant "Fee"%string [] 0%N []); (Variant "Misc"%string [] 1%N []); (Variant "All"%string [] 2%N [])]) []).
Definition md_t501 : ty := (Ty [] [] (TSequence 499%N) []).
Definition md_t502 : ty := (Ty ["bounded_collections"%string; "bounded_vec"%string; "BoundedVec"%string] [("T"%string,(Some 503%N)); ("S"%string,None)] (TComposite [(Field None 504%N (Some "Vec<T>"%string) [])]) []).
Definition md_t503 : ty := (Ty ["pallet_balances"%string; "types"%string; "ReserveData"%string] [("ReserveIdentifier"%string,(Some 172%N)); ("Balance"%string,(Some 6%N))] (TComposite [(Field (Some "id"%string) 172%N (Some "ReserveIdentifier"%string) []); (Field (Some "amount"%string) 6%N (Some "Balance"%string) [])]) []).
Definition md_t504 : ty := (Ty [] [] (TSequence 503%N) []).
Definition md_t505 : ty := (Ty ["bounded_collections"%string; "bounded_vec"%string; "BoundedVec"%string] [("T"%string,(Some 506%N)); ("S"%string,None)] (TComposite [(Field None 508%N (Some "Vec<T>"%string) [])]) []).
Definition md_t506 : ty := (Ty ["pallet_balances"%string; "types"%string; "IdAmount"%string] [("Id"%string,(Some 507%N)); ("Balance"%string,(Some 6%N))] (TComposite [(Field (Some "id"%string) 507%N (Some "Id"%string) []); (Field (Some "amount"%string) 6%N (Some "Balance"%string) [])]) []).
Definition md_t507 : ty := (Ty ["polkadot_runtime"%string; "RuntimeHoldReason"%string] [] (TVariant []) []).
Definition md_t508 : ty := (Ty [] [] (TSequence 506%N) []).
Definition md_t509 : ty := (Ty ["bounded_collections"%string; "bounded_vec"%string; "BoundedVec"%string] [("T"%string,(Some 510%N)); ("S"%string,None)] (TComposite [(Field None 511%N (Some "Vec<T>"%string) [])]) []).
Definition md_t510 : ty := (Ty ["pallet_balances"%string; "types"%string; "IdAmount"%string] [("Id"%string,(Some 34%N)); ("Balance"%string,(Some 6%N))] (TComposite [(Field (Some "id"%string) 34%N (Some "Id"%string) []); (Field (Some "amount"%string) 6%N (Some "Balance"%string) [])]) []).
Definition md_t511 : ty := (Ty [] [] (TSequence 510%N) []).
Definition md_t512 : ty := (Ty ["pallet_balances"%string; "pallet"%string; "Error"%string] [("T"%string,None); ("I"%string,None)] (TVariant [(Variant "VestingBalance"%string [] 0%N ["Vesting balance too high to send value."%string]); (Variant "LiquidityRestrictions"%string [] 1%N ["Account liquidity restrictions prevent withdrawal."%string]); (Variant "InsufficientBalance"%string [] 2%N ["Balance too low to send value."%string]); (Variant "ExistentialDeposit"%string [] 3%N ["Value too low to create account due to existential deposit."%string]); (Variant "Expendability"%string [] 4%N ["Transfer/payment would kill account."%string]); (Variant "ExistingVestingSchedule"%string [] 5%N ["A vesting schedule already exists for this account."%string]); (Variant "DeadAccount"%string [] 6%N ["Beneficiary account must pre-exist."%string]); (Variant "TooManyReserves"%string [] 7%N ["Number of named reserves exceed `MaxReserves`."%string]); (Variant "TooManyHolds"%string [] 8%N ["Number of holds exceed `MaxHolds`."%string]); (Variant "TooManyFreezes"%string [] 9%N ["Number of freezes exceed `MaxFreezes`."%string])]) ["The `Error` enum of this pallet."%string]).
Definition md_t513 : ty := (Ty ["sp_arithmetic"%string; "fixed_point"%string; "FixedU128"%string] [] (TComposite [(Field None 6%N (Some "u128"%string) [])]) []).
Definition md_t514 : ty := (Ty ["pallet_transaction_payment"%string; "Releases"%string] [] (TVariant [(Variant "V1Ancient"%string [] 0%N []); (Variant "V2"%string [] 1%N [])]) []).
Definition md_t515 : ty := (Ty ["pallet_staking"%string; "StakingLedger"%string] [("T"%string,None)] (TComposite [(Field (Some "stash"%string) 0%N (Some "T::AccountId"%string) []); (Field (Some "total"%string) 60%N (Some "BalanceOf<T>"%string) []); (Field (Some "active"%string) 60%N (Some "BalanceOf<T>"%string) []); (Field (Some "unlocking"%string) 516%N (Some "BoundedVec<UnlockChunk<BalanceOf<T>>, T::MaxUnlockingChunks>"%string) []); (Field (Some "claimed_rewards"%string) 519%N (Some "BoundedVec<EraIndex, T::HistoryDepth>"%string) [])]) []).
Definition md_t516 : ty := (Ty ["bounded_collections"%string; "bounded_vec"%string; "BoundedVec"%string] [("T"%string,(Some 517%N)); ("S"%string,None)] (TComposite [(Field None 518%N (Some "Vec<T>"%string) [])]) []).
Definition md_t517 : ty := (Ty ["pallet_staking"%string; "UnlockChunk"%string] [("Balance"%string,(Some 6%N))] (TComposite [(Field (Some "value"%string) 60%N (Some "Balance"%string) []); (Field (Some "era"%string) 79%N (Some "EraIndex"%string) [])]) []).
Definition md_t518 : ty := (Ty [] [] (TSequence 517%N) []).
Definition md_t519 : ty := (Ty ["bounded_collections"%string; "bounded_vec"%string; "BoundedVec"%string] [("T"%string,(Some 4%N)); ("S"%string,None)] (TComposite [(Field None 97%N (Some "Vec<T>"%string) [])]) []).
Definition md_t520 : ty := (Ty ["pallet_staking"%string; "Nominations"%string] [("T"%string,None)] (TComposite [(Field (Some "targets"%string) 521%N (Some "BoundedVec<T::AccountId, MaxNominationsOf<T>>"%string) []); (Field (Some "submitted_in"%string) 4%N (Some "EraIndex"%string) []); (Field (Some "suppressed"%string) 44%N (Some "bool"%string) [])]) []).
Definition md_t521 : ty := (Ty ["bounded_collections"%string; "bounded_vec"%string; "BoundedVec"%string] [("T"%string,(Some 0%N)); ("S"%string,None)] (TComposite [(Field None 92%N (Some "Vec<T>"%string) [])]) []).
Definition md_t522 : ty := (Ty ["pallet_staking"%string; "ActiveEraInfo"%string] [] (TComposite [(Field (Some "index"%string) 4%N (Some "EraIndex"%string) []); (Field (Some "start"%string) 523%N (Some "Option<u64>"%string) [])]) []).
Definition md_t523 : ty := (Ty ["Option"%string] [("T"%string,(Some 11%N))] (TVariant [(Variant "None"%string [] 0%N []); (Variant "Some"%string [(Field None 11%N None [])] 1%N [])]) []).
Definition md_t524 : ty := (Ty [] [] (TTuple [4%N; 0%N]) []).
Definition md_t525 : ty := (Ty ["pallet_staking"%string; "EraRewardPoints"%string] [("AccountId"%string,(Some 0%N))] (TComposite [(Field (Some "total"%string) 4%N (Some "RewardPoint"%string) []); (Field (Some "individual"%string) 526%N (Some "BTreeMap<AccountId, RewardPoint>"%string) [])]) []).
Definition md_t526 : ty := (Ty ["BTreeMap"%string] [("K"%string,(Some 0%N)); ("V"%string,(Some 4%N))] (TComposite [(Field None 527%N None [])]) []).
Definition md_t527 : ty := (Ty [] [] (TSequence 528%N) []).
Definition md_t528 : ty := (Ty [] [] (TTuple [0%N; 4%N]) []).
Definition md_t529 : ty := (Ty [] [] (TSequence 530%N) []).
Definition md_t530 : ty := (Ty ["pallet_staking"%string; "UnappliedSlash"%string] [("AccountId"%string,(Some 0%N)); ("Balance"%string,(Some 6%N))] (TComposite [(Field (Some "validator"%string) 0%N (Some "AccountId"%string) []); (Field (Some "own"%string) 6%N (Some "Balance"%string) []); (Field (Some "others"%string) 268%N (Some "Vec<(AccountId, Balance)>"%string) []); (Field (Some "reporters"%string) 92%N (Some "Vec<AccountId>"%string) []); (Field (Some "payout"%string) 6%N (Some "Balance"%string) [])]) []).
Definition md_t531 : ty := (Ty [] [] (TTuple [41%N; 6%N]) []).
Definition md_t532 : ty := (Ty ["pallet_staking"%string; "slashing"%string; "SlashingSpans"%string] [] (TComposite [(Field (Some "span_index"%string) 4%N (Some "SpanIndex"%string) []); (Field (Some "last_start"%string) 4%N (Some "EraIndex"%string) []); (Field (Some "last_nonzero_slash"%string) 4%N (Some "EraIndex"%string) []); (Field (Some "prior"%string) 97%N (Some "Vec<EraIndex>"%string) [])]) []).
Definition md_t533 : ty := (Ty ["pallet_staking"%string; "slashing"%string; "SpanRecord"%string] [("Balance"%string,(Some 6%N))] (TComposite [(Field (Some "slashed"%string) 6%N (Some "Balance"%string) []); (Field (Some "paid_out"%string) 6%N (Some "Balance"%string) [])]) []).
Definition md_t534 : ty := (Ty [] [] (TSequence 535%N) []).
Definition md_t535 : ty := (Ty [] [] (TTuple [4%N; 44%N]) []).
Definition md_t536 : ty := (Ty ["pallet_staking"%string; "pallet"%string; "pallet"%string; "Error"%string] [("T"%string,None)] (TVariant [(Variant "NotController"%string [] 0%N ["Not a controller account."%string]); (Variant "NotStash"%string [] 1%N ["Not a stash account."%string]); (Variant "AlreadyBonded"%string [] 2%N ["Stash is already bonded."%string]); (Variant "AlreadyPaired"%string [] 3%N ["Controller is already paired."%string]); (Variant "EmptyTargets"%string [] 4%N ["Targets cannot be empty."%string]); (Variant "DuplicateIndex"%string [] 5%N ["Duplicate index."%string]); (Variant "InvalidSlashIndex"%string [] 6%N ["Slash record index out of bounds."%string]); (Variant "InsufficientBond"%string [] 7%N ["Cannot have a validator or nominator role, with value less than the minimum defined by"%string; "governance (see `MinValidatorBond` and `MinNominatorBond`). If unbonding is the"%string; "intention, `chill` first to remove one's role as validator/nominator."%string]); (Variant "NoMoreChunks"%string [] 8%N ["Can not schedule more unlock chunks."%string]); (Variant "NoUnlockChunk"%string [] 9%N ["Can not rebond without unlocking chunks."%string]); (Variant "FundedTarget"%string [] 10%N ["Attempting to target a stash that still has funds."%string]); (Variant "InvalidEraToReward"%string [] 11%N ["Invalid era to reward."%string]); (Variant "InvalidNumberOfNominations"%string [] 12%N ["Invalid number of nominations."%string]); (Variant "NotSortedAndUnique"%string [] 13%N ["Items are not sorted and unique."%string]); (Variant "AlreadyClaimed"%string [] 14%N ["Rewards for this era have already been claimed for this validator."%string]); (Variant "IncorrectHistoryDepth"%string [] 15%N ["Incorrect previous history depth input provided."%string]); (Variant "IncorrectSlashingSpans"%string [] 16%N ["Incorrect number of slashing spans provided."%string]); (Variant "BadState"%string [] 17%N ["Internal state has become somehow corrupted and the operation cannot continue."%string]); (Variant "TooManyTargets"%string [] 18%N ["Too many nomination targets supplied."%string]); (Variant "BadTarget"%string [] 19%N ["A nomination target was supplied that was blocked or otherwise not a validator."%string]); (Variant "CannotChillOther"%string [] 20%N ["The user has enough bond and thus cannot be chilled forcefully by an external person."%string]); (Variant "TooManyNominators"%string [] 21%N ["There are too many nominators in the system. Governance needs to adjust the staking"%string; "settings to keep things safe for the runtime."%string]); (Variant "TooManyValidators"%string [] 22%N ["There are too many validator candidates in the system. Governance needs to adjust the"%string; "staking settings to keep things safe for the runtime."%string]); (Variant "CommissionTooLow"%string [] 23%N ["Commission is too low. Must be at least `MinCommission`."%string]); (Variant "BoundNotMet"%string [] 24%N ["Some bound is not met."%string])]) ["The `Error` enum of this pallet."%string]).
Definition md_t537 : ty := (Ty ["sp_staking"%string; "offence"%string; "OffenceDetails"%string] [("Reporter"%string,(Some 0%N)); ("Offender"%string,(Some 58%N))] (TComposite [(Field (Some "offender"%string) 58%N (Some "Offender"%string) []); (Field (Some "reporters"%string) 92%N (Some "Vec<Reporter>"%string) [])]) []).
Definition md_t538 : ty := (Ty [] [] (TTuple [47%N; 13%N]) []).
Definition md_t539 : ty := (Ty [] [] (TSequence 540%N) []).
Definition md_t540 : ty := (Ty [] [] (TTuple [0%N; 103%N]) []).
Definition md_t541 : ty := (Ty [] [] (TTuple [542%N; 13%N]) []).
Definition md_t542 : ty := (Ty ["sp_core"%string; "crypto"%string; "KeyTypeId"%string] [] (TComposite [(Field None 17%N (Some "[u8; 4]"%string) [])]) []).
Definition md_t543 : ty := (Ty ["pallet_session"%string; "pallet"%string; "Error"%string] [("T"%string,None)] (TVariant [(Variant "InvalidProof"%string [] 0%N ["Invalid ownership proof."%string]); (Variant "NoAssociatedValidatorId"%string [] 1%N ["No associated validator ID for account."%string]); (Variant "DuplicatedKey"%string [] 2%N ["Registered duplicate key."%string]); (Variant "NoKeys"%string [] 3%N ["No keys are associated with this account."%string]); (Variant "NoAccount"%string [] 4%N ["Key setting account is not live, so it's impossible to associate keys."%string])]) ["Error for the session pallet."%string]).
Definition md_t544 : ty := (Ty ["pallet_grandpa"%string; "StoredState"%string] [("N"%string,(Some 4%N))] (TVariant [(Variant "Live"%string [] 0%N []); (Variant "PendingPause"%string [(Field (Some "scheduled_at"%string) 4%N (Some "N"%string) []); (Field (Some "delay"%string) 4%N (Some "N"%string) [])] 1%N []); (Variant "Paused"%string [] 2%N []); (Variant "PendingResume"%string [(Field (Some "scheduled_at"%string) 4%N (Some "N"%string) []); (Field (Some "delay"%string) 4%N (Some "N"%string) [])] 3%N [])]) []).
Definition md_t545 : ty := (Ty ["pallet_grandpa"%string; "StoredPendingChange"%string] [("N"%string,(Some 4%N)); ("Limit"%string,None)] (TComposite [(Field (Some "scheduled_at"%string) 4%N (Some "N"%string) []); (Field (Some "delay"%string) 4%N (Some "N"%string) []); (Field (Some "next_authorities"%string) 546%N (Some "BoundedAuthorityList<Limit>"%string) []); (Field (Some "forced"%string) 270%N (Some "Option<N>"%string) [])]) []).
Definition md_t546 : ty := (Ty ["bounded_collections"%string; "weak_bounded_vec"%string; "WeakBoundedVec"%string] [("T"%string,(Some 51%N)); ("S"%string,None)] (TComposite [(Field None 50%N (Some "Vec<T>"%string) [])]) []).
Definition md_t547 : ty := (Ty ["pallet_grandpa"%string; "pallet"%string; "Error"%string] [("T"%string,None)] (TVariant [(Variant "PauseFailed"%string [] 0%N ["Attempt to signal GRANDPA pause when the authority set isn't live"%string; "(either paused or already pending pause)."%string]); (Variant "ResumeFailed"%string [] 1%N ["Attempt to signal GRANDPA resume when the authority set isn't paused"%string; "(either live or already pending resume)."%string]); (Variant "ChangePending"%string [] 2%N ["Attempt to signal GRANDPA change with one already pending."%string]); (Variant "TooSoon"%string [] 3%N ["Cannot signal forced change so soon after last."%string]); (Variant "InvalidKeyOwnershipProof"%string [] 4%N ["A key ownership proof provided as part of an equivocation report is invalid."%string]); (Variant "InvalidEquivocationProof"%string [] 5%N ["An equivocation proof provided as part of an equivocation report is invalid."%string]); (Variant "DuplicateOffenceReport"%string [] 6%N ["A given equivocation report is valid but already previously reported."%string])]) ["The `Error` enum of this pallet."%string]).
Definition md_t548 : ty := (Ty ["bounded_collections"%string; "weak_bounded_vec"%string; "WeakBoundedVec"%string] [("T"%string,(Some 55%N)); ("S"%string,None)] (TComposite [(Field None 549%N (Some "Vec<T>"%string) [])]) []).
Definition md_t549 : ty := (Ty [] [] (TSequence 55%N) []).
Definition md_t550 : ty := (Ty ["pallet_im_online"%string; "pallet"%string; "Error"%string] [("T"%string,None)] (TVariant [(Variant "InvalidKey"%string [] 0%N ["Non existent public key."%string]); (Variant "DuplicatedHeartbeat"%string [] 1%N ["Duplicated heartbeat."%string])]) ["The `Error` enum of this pallet."%string]).
Definition md_t551 : ty := (Ty ["pallet_treasury"%string; "Proposal"%string] [("AccountId"%string,(Some 0%N)); ("Balance"%string,(Some 6%N))] (TComposite [(Field (Some "proposer"%string) 0%N (Some "AccountId"%string) []); (Field (Some "value"%string) 6%N (Some "Balance"%string) []); (Field (Some "beneficiary"%string) 0%N (Some "AccountId"%string) []); (Field (Some "bond"%string) 6%N (Some "Balance"%string) [])]) []).
Definition md_t552 : ty := (Ty ["bounded_collections"%string; "bounded_vec"%string; "BoundedVec"%string] [("T"%string,(Some 4%N)); ("S"%string,None)] (TComposite [(Field None 97%N (Some "Vec<T>"%string) [])]) []).
Definition md_t553 : ty := (Ty ["sp_arithmetic"%string; "per_things"%string; "Permill"%string] [] (TComposite [(Field None 4%N (Some "u32"%string) [])]) []).
Definition md_t554 : ty := (Ty ["Option"%string] [("T"%string,(Some 6%N))] (TVariant [(Variant "None"%string [] 0%N []); (Variant "Some"%string [(Field None 6%N None [])] 1%N [])]) []).
Definition md_t555 : ty := (Ty ["frame_support"%string; "PalletId"%string] [] (TComposite [(Field None 172%N (Some "[u8; 8]"%string) [])]) []).
Definition md_t556 : ty := (Ty ["pallet_treasury"%string; "pallet"%string; "Error"%string] [("T"%string,None); ("I"%string,None)] (TVariant [(Variant "InsufficientProposersBalance"%string [] 0%N ["Proposer's balance is too low."%string]); (Variant "InvalidIndex"%string [] 1%N ["No proposal or bounty at that index."%string]); (Variant "TooManyApprovals"%string [] 2%N ["Too many approvals in the queue."%string]); (Variant "InsufficientPermission"%string [] 3%N ["The spend origin is valid but the amount it is allowed to spend is lower than the"%string; "amount to be spent."%string]); (Variant "ProposalNotApproved"%string [] 4%N ["Proposal has not been approved."%string])]) ["Error for the treasury pallet."%string]).
Definition md_t557 : ty := (Ty [] [] (TTuple [0%N; 66%N]) []).
Definition md_t558 : ty := (Ty ["pallet_conviction_voting"%string; "vote"%string; "Voting"%string] [("Balance"%string,(Some 6%N)); ("AccountId"%string,(Some 0%N)); ("BlockNumber"%string,(Some 4%N)); ("PollIndex"%string,(Some 4%N)); ("MaxVotes"%string,None)] (TVariant [(Variant "Casting"%string [(Field None 559%N (Some "Casting<Balance, BlockNumber, PollIndex, MaxVotes>"%string) [])] 0%N []); (Variant "Delegating"%string [(Field None 565%N (Some "Delegating<Balance, AccountId, BlockNumber>"%string) [])] 1%N [])]) []).
Definition md_t559 : ty := (Ty ["pallet_conviction_voting"%string; "vote"%string; "Casting"%string] [("Balance"%string,(Some 6%N)); ("BlockNumber"%string,(Some 4%N)); ("PollIndex"%string,(Some 4%N)); ("MaxVotes"%string,None)] (TComposite [(Field (Some "votes"%string) 560%N (Some "BoundedVec<(PollIndex, AccountVote<Balance>), MaxVotes>"%string) []); (Field (Some "delegations"%string) 563%N (Some "Delegations<Balance>"%string) []); (Field (Some "prior"%string) 564%N (Some "PriorLock<BlockNumber, Balance>"%string) [])]) []).
Definition md_t560 : ty := (Ty ["bounded_collections"%string; "bounded_vec"%string; "BoundedVec"%string] [("T"%string,(Some 561%N)); ("S"%string,None)] (TComposite [(Field None 562%N (Some "Vec<T>"%string) [])]) []).
Definition md_t561 : ty := (Ty [] [] (TTuple [4%N; 125%N]) []).
Definition md_t562 : ty := (Ty [] [] (TSequence 561%N) []).
Definition md_t563 : ty := (Ty ["pallet_conviction_voting"%string; "types"%string; "Delegations"%string] [("Balance"%string,(Some 6%N))] (TComposite [(Field (Some "votes"%string) 6%N (Some "Balance"%string) []); (Field (Some "capital"%string) 6%N (Some "Balance"%string) [])]) []).
Definition md_t564 : ty := (Ty ["pallet_conviction_voting"%string; "vote"%string; "PriorLock"%string] [("BlockNumber"%string,(Some 4%N)); ("Balance"%string,(Some 6%N))] (TComposite [(Field None 4%N (Some "BlockNumber"%string) []); (Field None 6%N (Some "Balance"%string) [])]) []).
Definition md_t565 : ty := (Ty ["pallet_conviction_voting"%string; "vote"%string; "Delegating"%string] [("Balance"%string,(Some 6%N)); ("AccountId"%string,(Some 0%N)); ("BlockNumber"%string,(Some 4%N))] (TComposite [(Field (Some "balance"%string) 6%N (Some "Balance"%string) []); (Field (Some "target"%string) 0%N (Some "AccountId"%string) []); (Field (Some "conviction"%string) 127%N (Some "Conviction"%string) []); (Field (Some "delegations"%string) 563%N (Some "Delegations<Balance>"%string) []); (Field (Some "prior"%string) 564%N (Some "PriorLock<BlockNumber, Balance>"%string) [])]) []).
Definition md_t566 : ty := (Ty ["bounded_collections"%string; "bounded_vec"%string; "BoundedVec"%string] [("T"%string,(Some 567%N)); ("S"%string,None)] (TComposite [(Field None 568%N (Some "Vec<T>"%string) [])]) []).
Definition md_t567 : ty := (Ty [] [] (TTuple [66%N; 6%N]) []).
Definition md_t568 : ty := (Ty [] [] (TSequence 567%N) []).
Definition md_t569 : ty := (Ty ["pallet_conviction_voting"%string; "pallet"%string; "Error"%string] [("T"%string,None); ("I"%string,None)] (TVariant [(Variant "NotOngoing"%string [] 0%N ["Poll is not ongoing."%string]); (Variant "NotVoter"%string [] 1%N ["The given account did not vote on the poll."%string]); (Variant "NoPermission"%string [] 2%N ["The actor has no permission to conduct the action."%string]); (Variant "NoPermissionYet"%string [] 3%N ["The actor has no permission to conduct the action right now but will do in the future."%string]); (Variant "AlreadyDelegating"%string [] 4%N ["The account is already delegating."%string]); (Variant "AlreadyVoting"%string [] 5%N ["The account currently has votes attached to it and the operation cannot succeed until"%string; "these are removed, either through `unvote` or `reap_vote`."%string]); (Variant "InsufficientFunds"%string [] 6%N ["Too high a balance was provided that the account cannot afford."%string]); (Variant "NotDelegating"%string [] 7%N ["The account is not currently delegating."%string]); (Variant "Nonsense"%string [] 8%N ["Delegation to oneself makes no sense."%string]); (Variant "MaxVotesReached"%string [] 9%N ["Maximum number of votes reached."%string]); (Variant "ClassNeeded"%string [] 10%N ["The class must be supplied since it is not easily determinable from the state."%string]); (Variant "BadClass"%string [] 11%N ["The class ID supplied is invalid."%string])]) ["The `Error` enum of this pallet."%string]).
Definition md_t570 : ty := (Ty ["pallet_referenda"%string; "types"%string; "ReferendumInfo"%string] [("TrackId"%string,(Some 66%N)); ("RuntimeOrigin"%string,(Some 130%N)); ("Moment"%string,(Some 4%N)); ("Call"%string,(Some 67%N)); ("Balance"%string,(Some 6%N)); ("Tally"%string,(Some 416%N)); ("AccountId"%string,(Some 0%N)); ("ScheduleAddress"%string,(Some 31%N))] (TVariant [(Variant "Ongoing"%string [(Field None 571%N (Some "ReferendumStatus<TrackId, RuntimeOrigin, Moment, Call, Balance, Tally,
AccountId, ScheduleAddress,>"%string) [])] 0%N []); (Variant "Approved"%string [(Field None 4%N (Some "Moment"%string) []); (Field None 573%N (Some "Option<Deposit<AccountId, Balance>>"%string) []); (Field None 573%N (Some "Option<Deposit<AccountId, Balance>>"%string) [])] 1%N []); (Variant "Rejected"%string [(Field None 4%N (Some "Moment"%string) []); (Field None 573%N (Some "Option<Deposit<AccountId, Balance>>"%string) []); (Field None 573%N (Some "Option<Deposit<AccountId, Balance>>"%string) [])] 2%N []); (Variant "Cancelled"%string [(Field None 4%N (Some "Moment"%string) []); (Field None 573%N (Some "Option<Deposit<AccountId, Balance>>"%string) []); (Field None 573%N (Some "Option<Deposit<AccountId, Balance>>"%string) [])] 3%N []); (Variant "TimedOut"%string [(Field None 4%N (Some "Moment"%string) []); (Field None 573%N (Some "Option<Deposit<AccountId, Balance>>"%string) []); (Field None 573%N (Some "Option<Deposit<AccountId, Balance>>"%string) [])] 4%N []); (Variant "Killed"%string [(Field None 4%N (Some "Moment"%string) [])] 5%N [])]) []).
Definition md_t571 : ty := (Ty ["pallet_referenda"%string; "types"%string; "ReferendumStatus"%string] [("TrackId"%string,(Some 66%N)); ("RuntimeOrigin"%string,(Some 130%N)); ("Moment"%string,(Some 4%N)); ("Call"%string,(Some 67%N)); ("Balance"%string,(Some 6%N)); ("Tally"%string,(Some 416%N)); ("AccountId"%string,(Some 0%N)); ("ScheduleAddress"%string,(Some 31%N))] (TComposite [(Field (Some "track"%string) 66%N (Some "TrackId"%string) []); (Field (Some "origin"%string) 130%N (Some "RuntimeOrigin"%string) []); (Field (Some "proposal"%string) 67%N (Some "Call"%string) []); (Field (Some "enactment"%string) 144%N (Some "DispatchTime<Moment>"%string) []); (Field (Some "submitted"%string) 4%N (Some "Moment"%string) []); (Field (Some "submission_deposit"%string) 572%N (Some "Deposit<AccountId, Balance>"%string) []); (Field (Some "decision_deposit"%string) 573%N (Some "Option<Deposit<AccountId, Balance>>"%string) []); (Field (Some "deciding"%string) 574%N (Some "Option<DecidingStatus<Moment>>"%string) []); (Field (Some "tally"%string) 416%N (Some "Tally"%string) []); (Field (Some "in_queue"%string) 44%N (Some "bool"%string) []); (Field (Some "alarm"%string) 576%N (Some "Option<(Moment, ScheduleAddress)>"%string) [])]) []).
Definition md_t572 : ty := (Ty ["pallet_referenda"%string; "types"%string; "Deposit"%string] [("AccountId"%string,(Some 0%N)); ("Balance"%string,(Some 6%N))] (TComposite [(Field (Some "who"%string) 0%N (Some "AccountId"%string) []); (Field (Some "amount"%string) 6%N (Some "Balance"%string) [])]) []).
Definition md_t573 : ty := (Ty ["Option"%string] [("T"%string,(Some 572%N))] (TVariant [(Variant "None"%string [] 0%N []); (Variant "Some"%string [(Field None 572%N None [])] 1%N [])]) []).
Definition md_t574 : ty := (Ty ["Option"%string] [("T"%string,(Some 575%N))] (TVariant [(Variant "None"%string [] 0%N []); (Variant "Some"%string [(Field None 575%N None [])] 1%N [])]) []).
Definition md_t575 : ty := (Ty ["pallet_referenda"%string; "types"%string; "DecidingStatus"%string] [("BlockNumber"%string,(Some 4%N))] (TComposite [(Field (Some "since"%string) 4%N (Some "BlockNumber"%string) []); (Field (Some "confirming"%string) 270%N (Some "Option<BlockNumber>"%string) [])]) []).
Definition md_t576 : ty := (Ty ["Option"%string] [("T"%string,(Some 577%N))] (TVariant [(Variant "None"%string [] 0%N []); (Variant "Some"%string [(Field None 577%N None [])] 1%N [])]) []).
Definition md_t577 : ty := (Ty [] [] (TTuple [4%N; 31%N]) []).
Definition md_t578 : ty := (Ty ["bounded_collections"%string; "bounded_vec"%string; "BoundedVec"%string] [("T"%string,(Some 579%N)); ("S"%string,None)] (TComposite [(Field None 580%N (Some "Vec<T>"%string) [])]) []).
Definition md_t579 : ty := (Ty [] [] (TTuple [4%N; 6%N]) []).
Definition md_t580 : ty := (Ty [] [] (TSequence 579%N) []).
Definition md_t581 : ty := (Ty [] [] (TSequence 582%N) []).
Definition md_t582 : ty := (Ty [] [] (TTuple [66%N; 583%N]) []).
Definition md_t583 : ty := (Ty ["pallet_referenda"%string; "types"%string; "TrackInfo"%string] [("Balance"%string,(Some 6%N)); ("Moment"%string,(Some 4%N))] (TComposite [(Field (Some "name"%string) 458%N (Some "&'static str"%string) []); (Field (Some "max_deciding"%string) 4%N (Some "u32"%string) []); (Field (Some "decision_deposit"%string) 6%N (Some "Balance"%string) []); (Field (Some "prepare_period"%string) 4%N (Some "Moment"%string) []); (Field (Some "decision_period"%string) 4%N (Some "Moment"%string) []); (Field (Some "confirm_period"%string) 4%N (Some "Moment"%string) []); (Field (Some "min_enactment_period"%string) 4%N (Some "Moment"%string) []); (Field (Some "min_approval"%string) 584%N (Some "Curve"%string) []); (Field (Some "min_support"%string) 584%N (Some "Curve"%string) [])]) []).
Definition md_t584 : ty := (Ty ["pallet_referenda"%string; "types"%string; "Curve"%string] [] (TVariant [(Variant "LinearDecreasing"%string [(Field (Some "length"%string) 41%N (Some "Perbill"%string) []); (Field (Some "floor"%string) 41%N (Some "Perbill"%string) []); (Field (Some "ceil"%string) 41%N (Some "Perbill"%string) [])] 0%N []); (Variant "SteppedDecreasing"%string [(Field (Some "begin"%string) 41%N (Some "Perbill"%string) []); (Field (Some "end"%string) 41%N (Some "Perbill"%string) []); (Field (Some "step"%string) 41%N (Some "Perbill"%string) []); (Field (Some "period"%string) 41%N (Some "Perbill"%string) [])] 1%N []); (Variant "Reciprocal"%string [(Field (Some "factor"%string) 585%N (Some "FixedI64"%string) []); (Field (Some "x_offset"%string) 585%N (Some "FixedI64"%string) []); (Field (Some "y_offset"%string) 585%N (Some "FixedI64"%string) [])] 2%N [])]) []).
Definition md_t585 : ty := (Ty ["sp_arithmetic"%string; "fixed_point"%string; "FixedI64"%string] [] (TComposite [(Field None 586%N (Some "i64"%string) [])]) []).
Definition md_t586 : ty := (Ty [] [] (TPrimitive (PrI U64)) []).
Definition md_t587 : ty := (Ty ["pallet_referenda"%string; "pallet"%string; "Error"%string] [("T"%string,None); ("I"%string,None)] (TVariant [(Variant "NotOngoing"%string [] 0%N ["Referendum is not ongoing."%string]); (Variant "HasDeposit"%string [] 1%N ["Referendum's decision deposit is already paid."%string]); (Variant "BadTrack"%string [] 2%N ["The track identifier given was invalid."%string]); (Variant "Full"%string [] 3%N ["There are already a full complement of referenda in progress for this track."%string]); (Variant "QueueEmpty"%string [] 4%N ["The queue of the track is empty."%string]); (Variant "BadReferendum"%string [] 5%N ["The referendum index provided is invalid in this context."%string]); (Variant "NothingToDo"%string [] 6%N ["There was nothing to do in the advancement."%string]); (Variant "NoTrack"%string [] 7%N ["No track exists for the proposal origin."%string]); (Variant "Unfinished"%string [] 8%N ["Any deposit cannot be refunded until after the decision is over."%string]); (Variant "NoPermission"%string [] 9%N ["The deposit refunder is not the depositor."%string]); (Variant "NoDeposit"%string [] 10%N ["The deposit cannot be refunded since none was made."%string]); (Variant "BadStatus"%string [] 11%N ["The referendum status is invalid for this operation."%string]); (Variant "PreimageNotExist"%string [] 12%N ["The preimage does not exist."%string])]) ["The `Error` enum of this pallet."%string]).
Definition md_t588 : ty := (Ty ["pallet_whitelist"%string; "pallet"%string; "Error"%string] [("T"%string,None)] (TVariant [(Variant "UnavailablePreImage"%string [] 0%N ["The preimage of the call hash could not be loaded."%string]); (Variant "UndecodableCall"%string [] 1%N ["The call could not be decoded."%string]); (Variant "InvalidCallWeightWitness"%string [] 2%N ["The weight of the decoded call was higher than the witness."%string]); (Variant "CallIsNotWhitelisted"%string [] 3%N ["The call was not whitelisted."%string]); (Variant "CallAlreadyWhitelisted"%string [] 4%N ["The call was already whitelisted; No-Op."%string])]) ["The `Error` enum of this pallet."%string]).
Definition md_t589 : ty := (Ty ["polkadot_runtime_common"%string; "claims"%string; "pallet"%string; "Error"%string] [("T"%string,None)] (TVariant [(Variant "InvalidEthereumSignature"%string [] 0%N ["Invalid Ethereum signature."%string]); (Variant "SignerHasNoClaim"%string [] 1%N ["Ethereum address has no claim."%string]); (Variant "SenderHasNoClaim"%string [] 2%N ["Account ID sending transaction has no claim."%string]); (Variant "PotUnderflow"%string [] 3%N ["There's not enough in the pot to pay out some unvested amount. Generally implies a"%string; "logic error."%string]); (Variant "InvalidStatement"%string [] 4%N ["A needed statement was not included."%string]); (Variant "VestedBalanceExists"%string [] 5%N ["The account already has a vested balance."%string])]) ["The `Error` enum of this pallet."%string]).
Definition md_t590 : ty := (Ty ["bounded_collections"%string; "bounded_vec"%string; "BoundedVec"%string] [("T"%string,(Some 157%N)); ("S"%string,None)] (TComposite [(Field None 591%N (Some "Vec<T>"%string) [])]) []).
Definition md_t591 : ty := (Ty [] [] (TSequence 157%N) []).
Definition md_t592 : ty := (Ty ["pallet_vesting"%string; "Releases"%string] [] (TVariant [(Variant "V0"%string [] 0%N []); (Variant "V1"%string [] 1%N [])]) []).
Definition md_t593 : ty := (Ty ["pallet_vesting"%string; "pallet"%string; "Error"%string] [("T"%string,None)] (TVariant [(Variant "NotVesting"%string [] 0%N ["The account given is not vesting."%string]); (Variant "AtMaxVestingSchedules"%string [] 1%N ["The account already has `MaxVestingSchedules` count of schedules and thus"%string; "cannot add another one. Consider merging existing schedules in order to add another."%string]); (Variant "AmountLow"%string [] 2%N ["Amount being transferred is too low to create a vesting schedule."%string]); (Variant "ScheduleIndexOutOfBounds"%string [] 3%N ["An index was out of bounds of the vesting schedules."%string]); (Variant "InvalidScheduleParams"%string [] 4%N ["Failed to create a new schedule because some parameter was invalid."%string])]) ["Error for the vesting pallet."%string]).
Definition md_t594 : ty := (Ty ["pallet_utility"%string; "pallet"%string; "Error"%string] [("T"%string,None)] (TVariant [(Variant "TooManyCalls"%string [] 0%N ["Too many calls batched."%string])]) ["The `Error` enum of this pallet."%string]).
Definition md_t595 : ty := (Ty ["pallet_identity"%string; "types"%string; "Registration"%string] [("Balance"%string,(Some 6%N)); ("MaxJudgements"%string,None); ("MaxAdditionalFields"%string,None)] (TComposite [(Field (Some "judgements"%string) 596%N (Some "BoundedVec<(RegistrarIndex, Judgement<Balance>), MaxJudgements>"%string) []); (Field (Some "deposit"%string) 6%N (Some "Balance"%string) []); (Field (Some "info"%string) 161%N (Some "IdentityInfo<MaxAdditionalFields>"%string) [])]) []).
Definition md_t596 : ty := (Ty ["bounded_collections"%string; "bounded_vec"%string; "BoundedVec"%string] [("T"%string,(Some 597%N)); ("S"%string,None)] (TComposite [(Field None 598%N (Some "Vec<T>"%string) [])]) []).
Definition md_t597 : ty := (Ty [] [] (TTuple [4%N; 200%N]) []).
Definition md_t598 : ty := (Ty [] [] (TSequence 597%N) []).
Definition md_t599 : ty := (Ty [] [] (TTuple [6%N; 600%N]) []).
Definition md_t600 : ty := (Ty ["bounded_collections"%string; "bounded_vec"%string; "BoundedVec"%string] [("T"%string,(Some 0%N)); ("S"%string,None)] (TComposite [(Field None 92%N (Some "Vec<T>"%string) [])]) []).
Definition md_t601 : ty := (Ty ["bounded_collections"%string; "bounded_vec"%string; "BoundedVec"%string] [("T"%string,(Some 602%N)); ("S"%string,None)] (TComposite [(Field None 604%N (Some "Vec<T>"%string) [])]) []).
Definition md_t602 : ty := (Ty ["Option"%string] [("T"%string,(Some 603%N))] (TVariant [(Variant "None"%string [] 0%N []); (Variant "Some"%string [(Field None 603%N None [])] 1%N [])]) []).
Definition md_t603 : ty := (Ty ["pallet_identity"%string; "types"%string; "RegistrarInfo"%string] [("Balance"%string,(Some 6%N)); ("AccountId"%string,(Some 0%N))] (TComposite [(Field (Some "account"%string) 0%N (Some "AccountId"%string) []); (Field (Some "fee"%string) 6%N (Some "Balance"%string) []); (Field (Some "fields"%string) 198%N (Some "IdentityFields"%string) [])]) []).
Definition md_t604 : ty := (Ty [] [] (TSequence 602%N) []).
Definition md_t605 : ty := (Ty ["pallet_identity"%string; "pallet"%string; "Error"%string] [("T"%string,None)] (TVariant [(Variant "TooManySubAccounts"%string [] 0%N ["Too many subs-accounts."%string]); (Variant "NotFound"%string [] 1%N ["Account isn't found."%string]); (Variant "NotNamed"%string [] 2%N ["Account isn't named."%string]); (Variant "EmptyIndex"%string [] 3%N ["Empty index."%string]); (Variant "FeeChanged"%string [] 4%N ["Fee is changed."%string]); (Variant "NoIdentity"%string [] 5%N ["No identity found."%string]); (Variant "StickyJudgement"%string [] 6%N ["Sticky judgement."%string]); (Variant "JudgementGiven"%string [] 7%N ["Judgement given."%string]); (Variant "InvalidJudgement"%string [] 8%N ["Invalid judgement."%string]); (Variant "InvalidIndex"%string [] 9%N ["The index is invalid."%string]); (Variant "InvalidTarget"%string [] 10%N ["The target is invalid."%string]); (Variant "TooManyFields"%string [] 11%N ["Too many additional fields."%string]); (Variant "TooManyRegistrars"%string [] 12%N ["Maximum amount of registrars reached. Cannot add any more."%string]); (Variant "AlreadyClaimed"%string [] 13%N ["Account ID is already named."%string]); (Variant "NotSub"%string [] 14%N ["Sender is not a sub-account."%string]); (Variant "NotOwned"%string [] 15%N ["Sub-account isn't owned by sender."%string]); (Variant "JudgementForDifferentIdentity"%string [] 16%N ["The provided judgement was for a different identity."%string]); (Variant "JudgementPaymentFailed"%string [] 17%N ["Error that occurs when there is an issue paying for judgement."%string])]) ["The `Error` enum of this pallet."%string]).
Definition md_t606 : ty := (Ty [] [] (TTuple [607%N; 6%N]) []).
Definition md_t607 : ty := (Ty ["bounded_collections"%string; "bounded_vec"%string; "BoundedVec"%string] [("T"%string,(Some 608%N)); ("S"%string,None)] (TComposite [(Field None 609%N (Some "Vec<T>"%string) [])]) []).
Definition md_t608 : ty := (Ty ["pallet_proxy"%string; "ProxyDefinition"%string] [("AccountId"%string,(Some 0%N)); ("ProxyType"%string,(Some 203%N)); ("BlockNumber"%string,(Some 4%N))] (TComposite [(Field (Some "delegate"%string) 0%N (Some "AccountId"%string) []); (Field (Some "proxy_type"%string) 203%N (Some "ProxyType"%string) []); (Field (Some "delay"%string) 4%N (Some "BlockNumber"%string) [])]) []).
Definition md_t609 : ty := (Ty [] [] (TSequence 608%N) []).
Definition md_t610 : ty := (Ty [] [] (TTuple [611%N; 6%N]) []).
Definition md_t611 : ty := (Ty ["bounded_collections"%string; "bounded_vec"%string; "BoundedVec"%string] [("T"%string,(Some 612%N)); ("S"%string,None)] (TComposite [(Field None 613%N (Some "Vec<T>"%string) [])]) []).
Definition md_t612 : ty := (Ty ["pallet_proxy"%string; "Announcement"%string] [("AccountId"%string,(Some 0%N)); ("Hash"%string,(Some 12%N)); ("BlockNumber"%string,(Some 4%N))] (TComposite [(Field (Some "real"%string) 0%N (Some "AccountId"%string) []); (Field (Some "call_hash"%string) 12%N (Some "Hash"%string) []); (Field (Some "height"%string) 4%N (Some "BlockNumber"%string) [])]) []).
Definition md_t613 : ty := (Ty [] [] (TSequence 612%N) []).
Definition md_t614 : ty := (Ty ["pallet_proxy"%string; "pallet"%string; "Error"%string] [("T"%string,None)] (TVariant [(Variant "TooMany"%string [] 0%N ["There are too many proxies registered or too many announcements pending."%string]); (Variant "NotFound"%string [] 1%N ["Proxy registration not found."%string]); (Variant "NotProxy"%string [] 2%N ["Sender is not a proxy of the account to be proxied."%string]); (Variant "Unproxyable"%string [] 3%N ["A call which is incompatible with the proxy type's filter was attempted."%string]); (Variant "Duplicate"%string [] 4%N ["Account is already a proxy."%string]); (Variant "NoPermission"%string [] 5%N ["Call may not be made by proxy because it may escalate its privileges."%string]); (Variant "Unannounced"%string [] 6%N ["Announcement, if made at all, was made too recently."%string]); (Variant "NoSelfProxy"%string [] 7%N ["Cannot add self as proxy."%string])]) ["The `Error` enum of this pallet."%string]).
Definition md_t615 : ty := (Ty [] [] (TTuple [0%N; 1%N]) []).
Definition md_t616 : ty := (Ty ["pallet_multisig"%string; "Multisig"%string] [("BlockNumber"%string,(Some 4%N)); ("Balance"%string,(Some 6%N)); ("AccountId"%string,(Some 0%N)); ("MaxApprovals"%string,None)] (TComposite [(Field (Some "when"%string) 206%N (Some "Timepoint<BlockNumber>"%string) []); (Field (Some "deposit"%string) 6%N (Some "Balance"%string) []); (Field (Some "depositor"%string) 0%N (Some "AccountId"%string) []); (Field (Some "approvals"%string) 617%N (Some "BoundedVec<AccountId, MaxApprovals>"%string) [])]) []).
Definition md_t617 : ty := (Ty ["bounded_collections"%string; "bounded_vec"%string; "BoundedVec"%string] [("T"%string,(Some 0%N)); ("S"%string,None)] (TComposite [(Field None 92%N (Some "Vec<T>"%string) [])]) []).
Definition md_t618 : ty := (Ty ["pallet_multisig"%string; "pallet"%string; "Error"%string] [("T"%string,None)] (TVariant [(Variant "MinimumThreshold"%string [] 0%N ["Threshold must be 2 or greater."%string]); (Variant "AlreadyApproved"%string [] 1%N ["Call is already approved by this signatory."%string]); (Variant "NoApprovalsNeeded"%string [] 2%N ["Call doesn't need any (more) approvals."%string]); (Variant "TooFewSignatories"%string [] 3%N ["There are too few signatories in the list."%string]); (Variant "TooManySignatories"%string [] 4%N ["There are too many signatories in the list."%string]); (Variant "SignatoriesOutOfOrder"%string [] 5%N ["The signatories were provided out of order; they should be ordered."%string]); (Variant "SenderInSignatories"%string [] 6%N ["The sender was contained in the other signatories; it shouldn't be."%string]); (Variant "NotFound"%string [] 7%N ["Multisig operation not found when attempting to cancel."%string]); (Variant "NotOwner"%string [] 8%N ["Only the account that originally created the multisig is able to cancel it."%string]); (Variant "NoTimepoint"%string [] 9%N ["No timepoint was given, yet the multisig operation is already underway."%string]); (Variant "WrongTimepoint"%string [] 10%N ["A different timepoint was given to the multisig operation that is underway."%string]); (Variant "UnexpectedTimepoint"%string [] 11%N ["A timepoint was given, yet no multisig operation is underway."%string]); (Variant "MaxWeightTooLow"%string [] 12%N ["The maximum weight information provided was too low."%string]); (Variant "AlreadyStored"%string [] 13%N ["The data to be stored is already stored."%string])]) ["The `Error` enum of this pallet."%string]).
Definition md_t619 : ty := (Ty ["pallet_bounties"%string; "Bounty"%string] [("AccountId"%string,(Some 0%N)); ("Balance"%string,(Some 6%N)); ("BlockNumber"%string,(Some 4%N))] (TComposite [(Field (Some "proposer"%string) 0%N (Some "AccountId"%string) []); (Field (Some "value"%string) 6%N (Some "Balance"%string) []); (Field (Some "fee"%string) 6%N (Some "Balance"%string) []); (Field (Some "curator_deposit"%string) 6%N (Some "Balance"%string) []); (Field (Some "bond"%string) 6%N (Some "Balance"%string) []); (Field (Some "status"%string) 620%N (Some "BountyStatus<AccountId, BlockNumber>"%string) [])]) []).
Definition md_t620 : ty := (Ty ["pallet_bounties"%string; "BountyStatus"%string] [("AccountId"%string,(Some 0%N)); ("BlockNumber"%string,(Some 4%N))] (TVariant [(Variant "Proposed"%string [] 0%N []); (Variant "Approved"%string [] 1%N []); (Variant "Funded"%string [] 2%N []); (Variant "CuratorProposed"%string [(Field (Some "curator"%string) 0%N (Some "AccountId"%string) [])] 3%N []); (Variant "Active"%string [(Field (Some "curator"%string) 0%N (Some "AccountId"%string) []); (Field (Some "update_due"%string) 4%N (Some "BlockNumber"%string) [])] 4%N []); (Variant "PendingPayout"%string [(Field (Some "curator"%string) 0%N (Some "AccountId"%string) []); (Field (Some "beneficiary"%string) 0%N (Some "AccountId"%string) []); (Field (Some "unlock_at"%string) 4%N (Some "BlockNumber"%string) [])] 5%N [])]) []).
Definition md_t621 : ty := (Ty ["bounded_collections"%string; "bounded_vec"%string; "BoundedVec"%string] [("T"%string,(Some 2%N)); ("S"%string,None)] (TComposite [(Field None 13%N (Some "Vec<T>"%string) [])]) []).
Definition md_t622 : ty := (Ty ["pallet_bounties"%string; "pallet"%string; "Error"%string] [("T"%string,None); ("I"%string,None)] (TVariant [(Variant "InsufficientProposersBalance"%string [] 0%N ["Proposer's balance is too low."%string]); (Variant "InvalidIndex"%string [] 1%N ["No proposal or bounty at that index."%string]); (Variant "ReasonTooBig"%string [] 2%N ["The reason given is just too big."%string]); (Variant "UnexpectedStatus"%string [] 3%N ["The bounty status is unexpected."%string]); (Variant "RequireCurator"%string [] 4%N ["Require bounty curator."%string]); (Variant "InvalidValue"%string [] 5%N ["Invalid bounty value."%string]); (Variant "InvalidFee"%string [] 6%N ["Invalid bounty fee."%string]); (Variant "PendingPayout"%string [] 7%N ["A bounty payout is pending."%string; "To cancel the bounty, you must unassign and slash the curator."%string]); (Variant "Premature"%string [] 8%N ["The bounties cannot be claimed/closed because it's still in the countdown period."%string]); (Variant "HasActiveChildBounty"%string [] 9%N ["The bounty cannot be closed because it has active child bounties."%string]); (Variant "TooManyQueued"%string [] 10%N ["Too many approvals are already queued."%string])]) ["The `Error` enum of this pallet."%string]).
Definition md_t623 : ty := (Ty ["pallet_child_bounties"%string; "ChildBounty"%string] [("AccountId"%string,(Some 0%N)); ("Balance"%string,(Some 6%N)); ("BlockNumber"%string,(Some 4%N))] (TComposite [(Field (Some "parent_bounty"%string) 4%N (Some "BountyIndex"%string) []); (Field (Some "value"%string) 6%N (Some "Balance"%string) []); (Field (Some "fee"%string) 6%N (Some "Balance"%string) []); (Field (Some "curator_deposit"%string) 6%N (Some "Balance"%string) []); (Field (Some "status"%string) 624%N (Some "ChildBountyStatus<AccountId, BlockNumber>"%string) [])]) []).
Definition md_t624 : ty := (Ty ["pallet_child_bounties"%string; "ChildBountyStatus"%string] [("AccountId"%string,(Some 0%N)); ("BlockNumber"%string,(Some 4%N))] (TVariant [(Variant "Added"%string [] 0%N []); (Variant "CuratorProposed"%string [(Field (Some "curator"%string) 0%N (Some "AccountId"%string) [])] 1%N []); (Variant "Active"%string [(Field (Some "curator"%string) 0%N (Some "AccountId"%string) [])] 2%N []); (Variant "PendingPayout"%string [(Field (Some "curator"%string) 0%N (Some "AccountId"%string) []); (Field (Some "beneficiary"%string) 0%N (Some "AccountId"%string) []); (Field (Some "unlock_at"%string) 4%N (Some "BlockNumber"%string) [])] 3%N [])]) []).
Definition md_t625 : ty := (Ty ["pallet_child_bounties"%string; "pallet"%string; "Error"%string] [("T"%string,None)] (TVariant [(Variant "ParentBountyNotActive"%string [] 0%N ["The parent bounty is not in active state."%string]); (Variant "InsufficientBountyBalance"%string [] 1%N ["The bounty balance is not enough to add new child-bounty."%string]); (Variant "TooManyChildBounties"%string [] 2%N ["Number of child bounties exceeds limit `MaxActiveChildBountyCount`."%string])]) ["The `Error` enum of this pallet."%string]).
Definition md_t626 : ty := (Ty ["pallet_election_provider_multi_phase"%string; "ReadySolution"%string] [("AccountId"%string,None); ("MaxWinners"%string,None)] (TComposite [(Field (Some "supports"%string) 627%N (Some "BoundedSupports<AccountId, MaxWinners>"%string) []); (Field (Some "score"%string) 262%N (Some "ElectionScore"%string) []); (Field (Some "compute"%string) 431%N (Some "ElectionCompute"%string) [])]) []).
Definition md_t627 : ty := (Ty ["bounded_collections"%string; "bounded_vec"%string; "BoundedVec"%string] [("T"%string,(Some 266%N)); ("S"%string,None)] (TComposite [(Field None 265%N (Some "Vec<T>"%string) [])]) []).
Definition md_t628 : ty := (Ty ["pallet_election_provider_multi_phase"%string; "RoundSnapshot"%string] [("AccountId"%string,(Some 0%N)); ("DataProvider"%string,(Some 629%N))] (TComposite [(Field (Some "voters"%string) 630%N (Some "Vec<DataProvider>"%string) []); (Field (Some "targets"%string) 92%N (Some "Vec<AccountId>"%string) [])]) []).
Definition md_t629 : ty := (Ty [] [] (TTuple [0%N; 11%N; 521%N]) []).
Definition md_t630 : ty := (Ty [] [] (TSequence 629%N) []).
Definition md_t631 : ty := (Ty ["bounded_collections"%string; "bounded_vec"%string; "BoundedVec"%string] [("T"%string,(Some 632%N)); ("S"%string,None)] (TComposite [(Field None 633%N (Some "Vec<T>"%string) [])]) []).
Definition md_t632 : ty := (Ty [] [] (TTuple [262%N; 4%N; 4%N]) []).
Definition md_t633 : ty := (Ty [] [] (TSequence 632%N) []).
Definition md_t634 : ty := (Ty ["pallet_election_provider_multi_phase"%string; "signed"%string; "SignedSubmission"%string] [("AccountId"%string,(Some 0%N)); ("Balance"%string,(Some 6%N)); ("Solution"%string,(Some 211%N))] (TComposite [(Field (Some "who"%string) 0%N (Some "AccountId"%string) []); (Field (Some "deposit"%string) 6%N (Some "Balance"%string) []); (Field (Some "raw_solution"%string) 210%N (Some "RawSolution<Solution>"%string) []); (Field (Some "call_fee"%string) 6%N (Some "Balance"%string) [])]) []).
Definition md_t635 : ty := (Ty ["pallet_election_provider_multi_phase"%string; "pallet"%string; "Error"%string] [("T"%string,None)] (TVariant [(Variant "PreDispatchEarlySubmission"%string [] 0%N ["Submission was too early."%string]); (Variant "PreDispatchWrongWinnerCount"%string [] 1%N ["Wrong number of winners presented."%string]); (Variant "PreDispatchWeakSubmission"%string [] 2%N ["Submission was too weak, score-wise."%string]); (Variant "SignedQueueFull"%string [] 3%N ["The queue was full, and the solution was not better than any of the existing ones."%string]); (Variant "SignedCannotPayDeposit"%string [] 4%N ["The origin failed to pay the deposit."%string]); (Variant "SignedInvalidWitness"%string [] 5%N ["Witness data to dispatchable is invalid."%string]); (Variant "SignedTooMuchWeight"%string [] 6%N ["The signed submission consumes too much weight"%string]); (Variant "OcwCallWrongEra"%string [] 7%N ["OCW submitted solution for wrong round"%string]); (Variant "MissingSnapshotMetadata"%string [] 8%N ["Snapshot metadata should exist but didn't."%string]); (Variant "InvalidSubmissionIndex"%string [] 9%N ["`Self::insert_submission` returned an invalid index."%string]); (Variant "CallNotAllowed"%string [] 10%N ["The call is not allowed at this point."%string]); (Variant "FallbackFailed"%string [] 11%N ["The fallback failed"%string]); (Variant "BoundNotMet"%string [] 12%N ["Some bound not met"%string]); (Variant "TooManyWinners"%string [] 13%N ["Submitted solution has too many winners"%string])]) ["Error of the pallet that can be returned in response to dispatches."%string]).
Definition md_t636 : ty := (Ty ["pallet_bags_list"%string; "list"%string; "Node"%string] [("T"%string,None); ("I"%string,None)] (TComposite [(Field (Some "id"%string) 0%N (Some "T::AccountId"%string) []); (Field (Some "prev"%string) 155%N (Some "Option<T::AccountId>"%string) []); (Field (Some "next"%string) 155%N (Some "Option<T::AccountId>"%string) []); (Field (Some "bag_upper"%string) 11%N (Some "T::Score"%string) []); (Field (Some "score"%string) 11%N (Some "T::Score"%string) [])]) []).
Definition md_t637 : ty := (Ty ["pallet_bags_list"%string; "list"%string; "Bag"%string] [("T"%string,None); ("I"%string,None)] (TComposite [(Field (Some "head"%string) 155%N (Some "Option<T::AccountId>"%string) []); (Field (Some "tail"%string) 155%N (Some "Option<T::AccountId>"%string) [])]) []).
Definition md_t638 : ty := (Ty [] [] (TSequence 11%N) []).
Definition md_t639 : ty := (Ty ["pallet_bags_list"%string; "pallet"%string; "Error"%string] [("T"%string,None); ("I"%string,None)] (TVariant [(Variant "List"%string [(Field None 640%N (Some "ListError"%string) [])] 0%N ["A error in the list interface implementation."%string])]) ["The `Error` enum of this pallet."%string]).
Definition md_t640 : ty := (Ty ["pallet_bags_list"%string; "list"%string; "ListError"%string] [] (TVariant [(Variant "Duplicate"%string [] 0%N []); (Variant "NotHeavier"%string [] 1%N []); (Variant "NotInSameBag"%string [] 2%N []); (Variant "NodeNotFound"%string [] 3%N [])]) []).
Definition md_t641 : ty := (Ty ["pallet_nomination_pools"%string; "PoolMember"%string] [("T"%string,None)] (TComposite [(Field (Some "pool_id"%string) 4%N (Some "PoolId"%string) []); (Field (Some "points"%string) 6%N (Some "BalanceOf<T>"%string) []); (Field (Some "last_recorded_reward_counter"%string) 513%N (Some "T::RewardCounter"%string) []); (Field (Some "unbonding_eras"%string) 642%N (Some "BoundedBTreeMap<EraIndex, BalanceOf<T>, T::MaxUnbonding>"%string) [])]) []).
Definition md_t642 : ty := (Ty ["bounded_collections"%string; "bounded_btree_map"%string; "BoundedBTreeMap"%string] [("K"%string,(Some 4%N)); ("V"%string,(Some 6%N)); ("S"%string,None)] (TComposite [(Field None 643%N (Some "BTreeMap<K, V>"%string) [])]) []).
Definition md_t643 : ty := (Ty ["BTreeMap"%string] [("K"%string,(Some 4%N)); ("V"%string,(Some 6%N))] (TComposite [(Field None 580%N None [])]) []).
Definition md_t644 : ty := (Ty ["pallet_nomination_pools"%string; "BondedPoolInner"%string] [("T"%string,None)] (TComposite [(Field (Some "commission"%string) 645%N (Some "Commission<T>"%string) []); (Field (Some "member_counter"%string) 4%N (Some "u32"%string) []); (Field (Some "points"%string) 6%N (Some "BalanceOf<T>"%string) []); (Field (Some "roles"%string) 648%N (Some "PoolRoles<T::AccountId>"%string) []); (Field (Some "state"%string) 274%N (Some "PoolState"%string) [])]) []).
Definition md_t645 : ty := (Ty ["pallet_nomination_pools"%string; "Commission"%string] [("T"%string,None)] (TComposite [(Field (Some "current"%string) 280%N (Some "Option<(Perbill, T::AccountId)>"%string) []); (Field (Some "max"%string) 646%N (Some "Option<Perbill>"%string) []); (Field (Some "change_rate"%string) 647%N (Some "Option<CommissionChangeRate<BlockNumberFor<T>>>"%string) []); (Field (Some "throttle_from"%string) 270%N (Some "Option<BlockNumberFor<T>>"%string) [])]) []).
Definition md_t646 : ty := (Ty ["Option"%string] [("T"%string,(Some 41%N))] (TVariant [(Variant "None"%string [] 0%N []); (Variant "Some"%string [(Field None 41%N None [])] 1%N [])]) []).
Definition md_t647 : ty := (Ty ["Option"%string] [("T"%string,(Some 282%N))] (TVariant [(Variant "None"%string [] 0%N []); (Variant "Some"%string [(Field None 282%N None [])] 1%N [])]) []).
Definition md_t648 : ty := (Ty ["pallet_nomination_pools"%string; "PoolRoles"%string] [("AccountId"%string,(Some 0%N))] (TComposite [(Field (Some "depositor"%string) 0%N (Some "AccountId"%string) []); (Field (Some "root"%string) 155%N (Some "Option<AccountId>"%string) []); (Field (Some "nominator"%string) 155%N (Some "Option<AccountId>"%string) []); (Field (Some "bouncer"%string) 155%N (Some "Option<AccountId>"%string) [])]) []).
Definition md_t649 : ty := (Ty ["pallet_nomination_pools"%string; "RewardPool"%string] [("T"%string,None)] (TComposite [(Field (Some "last_recorded_reward_counter"%string) 513%N (Some "T::RewardCounter"%string) []); (Field (Some "last_recorded_total_payouts"%string) 6%N (Some "BalanceOf<T>"%string) []); (Field (Some "total_rewards_claimed"%string) 6%N (Some "BalanceOf<T>"%string) []); (Field (Some "total_commission_pending"%string) 6%N (Some "BalanceOf<T>"%string) []); (Field (Some "total_commission_claimed"%string) 6%N (Some "BalanceOf<T>"%string) [])]) []).
Definition md_t650 : ty := (Ty ["pallet_nomination_pools"%string; "SubPools"%string] [("T"%string,None)] (TComposite [(Field (Some "no_era"%string) 651%N (Some "UnbondPool<T>"%string) []); (Field (Some "with_era"%string) 652%N (Some "BoundedBTreeMap<EraIndex, UnbondPool<T>, TotalUnbondingPools<T>>"%string) [])]) []).
Definition md_t651 : ty := (Ty ["pallet_nomination_pools"%string; "UnbondPool"%string] [("T"%string,None)] (TComposite [(Field (Some "points"%string) 6%N (Some "BalanceOf<T>"%string) []); (Field (Some "balance"%string) 6%N (Some "BalanceOf<T>"%string) [])]) []).
Definition md_t652 : ty := (Ty ["bounded_collections"%string; "bounded_btree_map"%string; "BoundedBTreeMap"%string] [("K"%string,(Some 4%N)); ("V"%string,(Some 651%N)); ("S"%string,None)] (TComposite [(Field None 653%N (Some "BTreeMap<K, V>"%string) [])]) []).
Definition md_t653 : ty := (Ty ["BTreeMap"%string] [("K"%string,(Some 4%N)); ("V"%string,(Some 651%N))] (TComposite [(Field None 654%N None [])]) []).
Definition md_t654 : ty := (Ty [] [] (TSequence 655%N) []).
Definition md_t655 : ty := (Ty [] [] (TTuple [4%N; 651%N]) []).
Definition md_t656 : ty := (Ty ["bounded_collections"%string; "bounded_vec"%string; "BoundedVec"%string] [("T"%string,(Some 2%N)); ("S"%string,None)] (TComposite [(Field None 13%N (Some "Vec<T>"%string) [])]) []).
Definition md_t657 : ty := (Ty ["pallet_nomination_pools"%string; "pallet"%string; "Error"%string] [("T"%string,None)] (TVariant [(Variant "PoolNotFound"%string [] 0%N ["A (bonded) pool id does not exist."%string]); (Variant "PoolMemberNotFound"%string [] 1%N ["An account is not a member."%string]); (Variant "RewardPoolNotFound"%string [] 2%N ["A reward pool does not exist. In all cases this is a system logic error."%string]); (Variant "SubPoolsNotFound"%string [] 3%N ["A sub pool does not exist."%string]); (Variant "AccountBelongsToOtherPool"%string [] 4%N ["An account is already delegating in another pool. An account may only belong to one"%string; "pool at a time."%string]); (Variant "FullyUnbonding"%string [] 5%N ["The member is fully unbonded (and thus cannot access the bonded and reward pool"%string; "anymore to, for example, collect rewards)."%string]); (Variant "MaxUnbondingLimit"%string [] 6%N ["The member cannot unbond further chunks due to reaching the limit."%string]); (Variant "CannotWithdrawAny"%string [] 7%N ["None of the funds can be withdrawn yet because the bonding duration has not passed."%string]); (Variant "MinimumBondNotMet"%string [] 8%N ["The amount does not meet the minimum bond to either join or create a pool."%string; ""%string; "The depositor can never unbond to a value less than"%string; "`Pallet::depositor_min_bond`. The caller does not have nominating"%string; "permissions for the pool. Members can never unbond to a value below `MinJoinBond`."%string]); (Variant "OverflowRisk"%string [] 9%N ["The transaction could not be executed due to overflow risk for the pool."%string]); (Variant "NotDestroying"%string [] 10%N ["A pool must be in [`PoolState::Destroying`] in order for the depositor to unbond or for"%string; "other members to be permissionlessly unbonded."%string]); (Variant "NotNominator"%string [] 11%N ["The caller does not have nominating permissions for the pool."%string]); (Variant "NotKickerOrDestroying"%string [] 12%N ["Either a) the caller cannot make a valid kick or b) the pool is not destroying."%string]); (Variant "NotOpen"%string [] 13%N ["The pool is not open to join"%string]); (Variant "MaxPools"%string [] 14%N ["The system is maxed out on pools."%string]); (Variant "MaxPoolMembers"%string [] 15%N ["Too many members in the pool or system."%string]); (Variant "CanNotChangeState"%string [] 16%N ["The pools state cannot be changed."%string]); (Variant "DoesNotHavePermission"%string [] 17%N ["The caller does not have adequate permissions."%string]); (Variant "MetadataExceedsMaxLen"%string [] 18%N ["Metadata exceeds [`Config::MaxMetadataLen`]"%string]); (Variant "Defensive"%string [(Field None 658%N (Some "DefensiveError"%string) [])] 19%N ["Some error occurred that should never happen. This should be reported to the"%string; "maintainers."%string]); (Variant "PartialUnbondNotAllowedPermissionlessly"%string [] 20%N ["Partial unbonding now allowed permissionlessly."%string]); (Variant "MaxCommissionRestricted"%string [] 21%N ["The pool's max commission cannot be set higher than the existing value."%string]); (Variant "CommissionExceedsMaximum"%string [] 22%N ["The supplied commission exceeds the max allowed commission."%string]); (Variant "CommissionExceedsGlobalMaximum"%string [] 23%N ["The supplied commission exceeds global maximum commission."%string]); (Variant "CommissionChangeThrottled"%string [] 24%N ["Not enough blocks have surpassed since the last commission update."%string]); (Variant "CommissionChangeRateNotAllowed"%string [] 25%N ["The submitted changes to commission change rate are not allowed."%string]); (Variant "NoPendingCommission"%string [] 26%N ["There is no pending commission to claim."%string]); (Variant "NoCommissionCurrentSet"%string [] 27%N ["No commission current has been set."%string]); (Variant "PoolIdInUse"%string [] 28%N ["Pool id currently in use."%string]); (Variant "InvalidPoolId"%string [] 29%N ["Pool id provided is not correct/usable."%string]); (Variant "BondExtraRestricted"%string [] 30%N ["Bonding extra is restricted to the exact pending reward amount."%string])]) ["The `Error` enum of this pallet."%string]).
Definition md_t658 : ty := (Ty ["pallet_nomination_pools"%string; "pallet"%string; "DefensiveError"%string] [] (TVariant [(Variant "NotEnoughSpaceInUnbondPool"%string [] 0%N []); (Variant "PoolNotFound"%string [] 1%N []); (Variant "RewardPoolNotFound"%string [] 2%N []); (Variant "SubPoolsNotFound"%string [] 3%N []); (Variant "BondedStashKilledPrematurely"%string [] 4%N [])]) []).
Definition md_t659 : ty := (Ty ["pallet_fast_unstake"%string; "types"%string; "UnstakeRequest"%string] [("T"%string,None)] (TComposite [(Field (Some "stashes"%string) 660%N (Some "BoundedVec<(T::AccountId, BalanceOf<T>), T::BatchSize>"%string) []); (Field (Some "checked"%string) 661%N (Some "BoundedVec<EraIndex, MaxChecking<T>>"%string) [])]) []).
Definition md_t660 : ty := (Ty ["bounded_collections"%string; "bounded_vec"%string; "BoundedVec"%string] [("T"%string,(Some 269%N)); ("S"%string,None)] (TComposite [(Field None 268%N (Some "Vec<T>"%string) [])]) []).
Definition md_t661 : ty := (Ty ["bounded_collections"%string; "bounded_vec"%string; "BoundedVec"%string] [("T"%string,(Some 4%N)); ("S"%string,None)] (TComposite [(Field None 97%N (Some "Vec<T>"%string) [])]) []).
Definition md_t662 : ty := (Ty ["pallet_fast_unstake"%string; "pallet"%string; "Error"%string] [("T"%string,None)] (TVariant [(Variant "NotController"%string [] 0%N ["The provided Controller account was not found."%string; ""%string; "This means that the given account is not bonded."%string]); (Variant "AlreadyQueued"%string [] 1%N ["The bonded account has already been queued."%string]); (Variant "NotFullyBonded"%string [] 2%N ["The bonded account has active unlocking chunks."%string]); (Variant "NotQueued"%string [] 3%N ["The provided un-staker is not in the `Queue`."%string]); (Variant "AlreadyHead"%string [] 4%N ["The provided un-staker is already in Head, and cannot deregister."%string]); (Variant "CallNotAllowed"%string [] 5%N ["The call is not allowed at this point because the pallet is not active."%string])]) ["The `Error` enum of this pallet."%string]).
Definition md_t663 : ty := (Ty ["polkadot_runtime_parachains"%string; "configuration"%string; "HostConfiguration"%string] [("BlockNumber"%string,(Some 4%N))] (TComposite [(Field (Some "max_code_size"%string) 4%N (Some "u32"%string) []); (Field (Some "max_head_data_size"%string) 4%N (Some "u32"%string) []); (Field (Some "max_upward_queue_count"%string) 4%N (Some "u32"%string) []); (Field (Some "max_upward_queue_size"%string) 4%N (Some "u32"%string) []); (Field (Some "max_upward_message_size"%string) 4%N (Some "u32"%string) []); (Field (Some "max_upward_message_num_per_candidate"%string) 4%N (Some "u32"%string) []); (Field (Some "hrmp_max_message_num_per_candidate"%string) 4%N (Some "u32"%string) []); (Field (Some "validation_upgrade_cooldown"%string) 4%N (Some "BlockNumber"%string) []); (Field (Some "validation_upgrade_delay"%string) 4%N (Some "BlockNumber"%string) []); (Field (Some "async_backing_params"%string) 285%N (Some "AsyncBackingParams"%string) []); (Field (Some "max_pov_size"%string) 4%N (Some "u32"%string) []); (Field (Some "max_downward_message_size"%string) 4%N (Some "u32"%string) []); (Field (Some "hrmp_max_parachain_outbound_channels"%string) 4%N (Some "u32"%string) []); (Field (Some "hrmp_sender_deposit"%string) 6%N (Some "Balance"%string) []); (Field (Some "hrmp_recipient_deposit"%string) 6%N (Some "Balance"%string) []); (Field (Some "hrmp_channel_max_capacity"%string) 4%N (Some "u32"%string) []); (Field (Some "hrmp_channel_max_total_size"%string) 4%N (Some "u32"%string) []); (Field (Some "hrmp_max_parachain_inbound_channels"%string) 4%N (Some "u32"%string) []); (Field (Some "hrmp_channel_max_message_size"%string) 4%N (Some "u32"%string) []); (Field (Some "executor_params"%string) 286%N (Some "ExecutorParams"%string) []); (Field (Some "code_retention_period"%string) 4%N (Some "BlockNumber"%string) []); (Field (Some "on_demand_cores"%string) 4%N (Some "u32"%string) []); (Field (Some "on_demand_retries"%string) 4%N (Some "u32"%string) []); (Field (Some "on_demand_queue_max_size"%string) 4%N (Some "u32"%string) []); (Field (Some "on_demand_target_queue_utilization"%string) 41%N (Some "Perbill"%string) []); (Field (Some "on_demand_fee_variability"%string) 41%N (Some "Perbill"%string) []); (Field (Some "on_demand_base_fee"%string) 6%N (Some "Balance"%string) []); (Field (Some "on_demand_ttl"%string) 4%N (Some "BlockNumber"%string) []); (Field (Some "group_rotation_frequency"%string) 4%N (Some "BlockNumber"%string) []); (Field (Some "paras_availability_period"%string) 4%N (Some "BlockNumber"%string) []); (Field (Some "scheduling_lookahead"%string) 4%N (Some "u32"%string) []); (Field (Some "max_validators_per_core"%string) 270%N (Some "Option<u32>"%string) []); (Field (Some "max_validators"%string) 270%N (Some "Option<u32>"%string) []); (Field (Some "dispute_period"%string) 4%N (Some "SessionIndex"%string) []); (Field (Some "dispute_post_conclusion_acceptance_period"%string) 4%N (Some "BlockNumber"%string) []); (Field (Some "no_show_slots"%string) 4%N (Some "u32"%string) []); (Field (Some "n_delay_tranches"%string) 4%N (Some "u32"%string) []); (Field (Some "zeroth_delay_tranche_width"%string) 4%N (Some "u32"%string) []); (Field (Some "needed_approvals"%string) 4%N (Some "u32"%string) []); (Field (Some "relay_vrf_modulo_samples"%string) 4%N (Some "u32"%string) []); (Field (Some "pvf_voting_ttl"%string) 4%N (Some "SessionIndex"%string) []); (Field (Some "minimum_validation_upgrade_delay"%string) 4%N (Some "BlockNumber"%string) []); (Field (Some "minimum_backing_votes"%string) 4%N (Some "u32"%string) [])]) []).
Definition md_t664 : ty := (Ty [] [] (TSequence 665%N) []).
Definition md_t665 : ty := (Ty [] [] (TTuple [4%N; 663%N]) []).
Definition md_t666 : ty := (Ty ["polkadot_runtime_parachains"%string; "configuration"%string; "pallet"%string; "Error"%string] [("T"%string,None)] (TVariant [(Variant "InvalidNewValue"%string [] 0%N ["The new value for a configuration parameter is invalid."%string])]) ["The `Error` enum of this pallet."%string]).
Definition md_t667 : ty := (Ty [] [] (TSequence 300%N) []).
Definition md_t668 : ty := (Ty [] [] (TSequence 104%N) []).
Definition md_t669 : ty := (Ty ["polkadot_runtime_parachains"%string; "shared"%string; "AllowedRelayParentsTracker"%string] [("Hash"%string,(Some 12%N)); ("BlockNumber"%string,(Some 4%N))] (TComposite [(Field (Some "buffer"%string) 670%N (Some "VecDeque<(Hash, Hash)>"%string) []); (Field (Some "latest_number"%string) 4%N (Some "BlockNumber"%string) [])]) []).
Definition md_t670 : ty := (Ty [] [] (TSequence 671%N) []).
Definition md_t671 : ty := (Ty [] [] (TTuple [12%N; 12%N]) []).
Definition md_t672 : ty := (Ty ["polkadot_runtime_parachains"%string; "inclusion"%string; "AvailabilityBitfieldRecord"%string] [("N"%string,(Some 4%N))] (TComposite [(Field (Some "bitfield"%string) 297%N (Some "AvailabilityBitfield"%string) []); (Field (Some "submitted_at"%string) 4%N (Some "N"%string) [])]) []).
Definition md_t673 : ty := (Ty ["polkadot_runtime_parachains"%string; "inclusion"%string; "CandidatePendingAvailability"%string] [("H"%string,(Some 12%N)); ("N"%string,(Some 4%N))] (TComposite [(Field (Some "core"%string) 439%N (Some "CoreIndex"%string) []); (Field (Some "hash"%string) 321%N (Some "CandidateHash"%string) []); (Field (Some "descriptor"%string) 305%N (Some "CandidateDescriptor<H>"%string) []); (Field (Some "availability_votes"%string) 298%N (Some "BitVec<u8, BitOrderLsb0>"%string) []); (Field (Some "backers"%string) 298%N (Some "BitVec<u8, BitOrderLsb0>"%string) []); (Field (Some "relay_parent_number"%string) 4%N (Some "N"%string) []); (Field (Some "backed_in_number"%string) 4%N (Some "N"%string) []); (Field (Some "backing_group"%string) 440%N (Some "GroupIndex"%string) [])]) []).
Definition md_t674 : ty := (Ty ["polkadot_runtime_parachains"%string; "inclusion"%string; "pallet"%string; "Error"%string] [("T"%string,None)] (TVariant [(Variant "UnsortedOrDuplicateValidatorIndices"%string [] 0%N ["Validator indices are out of order or contains duplicates."%string]); (Variant "UnsortedOrDuplicateDisputeStatementSet"%string [] 1%N ["Dispute statement sets are out of order or contain duplicates."%string]); (Variant "UnsortedOrDuplicateBackedCandidates"%string [] 2%N ["Backed candidates are out of order (core index) or contain duplicates."%string]); (Variant "UnexpectedRelayParent"%string [] 3%N ["A different relay parent was provided compared to the on-chain stored one."%string]); (Variant "WrongBitfieldSize"%string [] 4%N ["Availability bitfield has unexpected size."%string]); (Variant "BitfieldAllZeros"%string [] 5%N ["Bitfield consists of zeros only."%string]); (Variant "BitfieldDuplicateOrUnordered"%string [] 6%N ["Multiple bitfields submitted by same validator or validators out of order by index."%string]); (Variant "ValidatorIndexOutOfBounds"%string [] 7%N ["Validator index out of bounds."%string]); (Variant "InvalidBitfieldSignature"%string [] 8%N ["Invalid signature"%string]); (Variant "UnscheduledCandidate"%string [] 9%N ["Candidate submitted but para not scheduled."%string]); (Variant "CandidateScheduledBeforeParaFree"%string [] 10%N ["Candidate scheduled despite pending candidate already existing for the para."%string]); (Variant "ScheduledOutOfOrder"%string [] 11%N ["Scheduled cores out of order."%string]); (Variant "HeadDataTooLarge"%string [] 12%N ["Head data exceeds the configured maximum."%string]); (Variant "PrematureCodeUpgrade"%string [] 13%N ["Code upgrade prematurely."%string]); (Variant "NewCodeTooLarge"%string [] 14%N ["Output code is too large"%string]); (Variant "DisallowedRelayParent"%string [] 15%N ["The candidate's relay-parent was not allowed. Either it was"%string; "not recent enough or it didn't advance based on the last parachain block."%string]); (Variant "InvalidAssignment"%string [] 16%N ["Failed to compute group index for the core: either it's out of bounds"%string; "or the relay parent doesn't belong to the current session."%string]); (Variant "InvalidGroupIndex"%string [] 17%N ["Invalid group index in core assignment."%string]); (Variant "InsufficientBacking"%string [] 18%N ["Insufficient (non-majority) backing."%string]); (Variant "InvalidBacking"%string [] 19%N ["Invalid (bad signature, unknown validator, etc.) backing."%string]); (Variant "NotCollatorSigned"%string [] 20%N ["Collator did not sign PoV."%string]); (Variant "ValidationDataHashMismatch"%string [] 21%N ["The validation data hash does not match expected."%string]); (Variant "IncorrectDownwardMessageHandling"%string [] 22%N ["The downward message queue is not processed correctly."%string]); (Variant "InvalidUpwardMessages"%string [] 23%N ["At least one upward message sent does not pass the acceptance criteria."%string]); (Variant "HrmpWatermarkMishandling"%string [] 24%N ["The candidate didn't follow the rules of HRMP watermark advancement."%string]); (Variant "InvalidOutboundHrmp"%string [] 25%N ["The HRMP messages sent by the candidate is not valid."%string]); (Variant "InvalidValidationCodeHash"%string [] 26%N ["The validation code hash of the candidate is not valid."%string]); (Variant "ParaHeadMismatch"%string [] 27%N ["The `para_head` hash in the candidate descriptor doesn't match the hash of the actual"%string; "para head in the commitments."%string]); (Variant "BitfieldReferencesFreedCore"%string [] 28%N ["A bitfield that references a freed core,"%string; "either intentionally or as part of a concluded"%string; "invalid dispute."%string])]) ["The `Error` enum of this pallet."%string]).
Definition md_t675 : ty := (Ty ["polkadot_primitives"%string; "v5"%string; "ScrapedOnChainVotes"%string] [("H"%string,(Some 12%N))] (TComposite [(Field (Some "session"%string) 4%N (Some "SessionIndex"%string) []); (Field (Some "backing_validators_per_candidate"%string) 676%N (Some "Vec<(CandidateReceipt<H>, Vec<(ValidatorIndex, ValidityAttestation)>)
>"%string) []); (Field (Some "disputes"%string) 319%N (Some "MultiDisputeStatementSet"%string) [])]) []).
Definition md_t676 : ty := (Ty [] [] (TSequence 677%N) []).
Definition md_t677 : ty := (Ty [] [] (TTuple [438%N; 678%N]) []).
Definition md_t678 : ty := (Ty [] [] (TSequence 679%N) []).
Definition md_t679 : ty := (Ty [] [] (TTuple [300%N; 318%N]) []).
Definition md_t680 : ty := (Ty ["polkadot_runtime_parachains"%string; "paras_inherent"%string; "pallet"%string; "Error"%string] [("T"%string,None)] (TVariant [(Variant "TooManyInclusionInherents"%string [] 0%N ["Inclusion inherent called more than once per block."%string]); (Variant "InvalidParentHeader"%string [] 1%N ["The hash of the submitted parent header doesn't correspond to the saved block hash of"%string; "the parent."%string]); (Variant "CandidateConcludedInvalid"%string [] 2%N ["Disputed candidate that was concluded invalid."%string]); (Variant "InherentOverweight"%string [] 3%N ["The data given to the inherent will result in an overweight block."%string]); (Variant "DisputeStatementsUnsortedOrDuplicates"%string [] 4%N ["The ordering of dispute statements was invalid."%string]); (Variant "DisputeInvalid"%string [] 5%N ["A dispute statement was invalid."%string])]) ["The `Error` enum of this pallet."%string]).
Definition md_t681 : ty := (Ty [] [] (TSequence 667%N) []).
Definition md_t682 : ty := (Ty [] [] (TSequence 683%N) []).
Definition md_t683 : ty := (Ty ["polkadot_primitives"%string; "v5"%string; "CoreOccupied"%string] [("N"%string,(Some 4%N))] (TVariant [(Variant "Free"%string [] 0%N []); (Variant "Paras"%string [(Field None 684%N (Some "ParasEntry<N>"%string) [])] 1%N [])]) []).
Definition md_t684 : ty := (Ty ["polkadot_primitives"%string; "v5"%string; "ParasEntry"%string] [("N"%string,(Some 4%N))] (TComposite [(Field (Some "assignment"%string) 685%N (Some "Assignment"%string) []); (Field (Some "availability_timeouts"%string) 4%N (Some "u32"%string) []); (Field (Some "ttl"%string) 4%N (Some "N"%string) [])]) []).
Definition md_t685 : ty := (Ty ["polkadot_primitives"%string; "v5"%string; "Assignment"%string] [] (TComposite [(Field (Some "para_id"%string) 134%N (Some "Id"%string) [])]) []).
Definition md_t686 : ty := (Ty ["BTreeMap"%string] [("K"%string,(Some 439%N)); ("V"%string,(Some 687%N))] (TComposite [(Field None 689%N None [])]) []).
Definition md_t687 : ty := (Ty [] [] (TSequence 688%N) []).
Definition md_t688 : ty := (Ty ["Option"%string] [("T"%string,(Some 684%N))] (TVariant [(Variant "None"%string [] 0%N []); (Variant "Some"%string [(Field None 684%N None [])] 1%N [])]) []).
Definition md_t689 : ty := (Ty [] [] (TSequence 690%N) []).
Definition md_t690 : ty := (Ty [] [] (TTuple [439%N; 687%N]) []).
Definition md_t691 : ty := (Ty ["polkadot_runtime_parachains"%string; "paras"%string; "PvfCheckActiveVoteState"%string] [("BlockNumber"%string,(Some 4%N))] (TComposite [(Field (Some "votes_accept"%string) 298%N (Some "BitVec<u8, BitOrderLsb0>"%string) []); (Field (Some "votes_reject"%string) 298%N (Some "BitVec<u8, BitOrderLsb0>"%string) []); (Field (Some "age"%string) 4%N (Some "SessionIndex"%string) []); (Field (Some "created_at"%string) 4%N (Some "BlockNumber"%string) []); (Field (Some "causes"%string) 692%N (Some "Vec<PvfCheckCause<BlockNumber>>"%string) [])]) []).
Definition md_t692 : ty := (Ty [] [] (TSequence 693%N) []).
Definition md_t693 : ty := (Ty ["polkadot_runtime_parachains"%string; "paras"%string; "PvfCheckCause"%string] [("BlockNumber"%string,(Some 4%N))] (TVariant [(Variant "Onboarding"%string [(Field None 134%N (Some "ParaId"%string) [])] 0%N []); (Variant "Upgrade"%string [(Field (Some "id"%string) 134%N (Some "ParaId"%string) []); (Field (Some "included_at"%string) 4%N (Some "BlockNumber"%string) [])] 1%N [])]) []).
Definition md_t694 : ty := (Ty [] [] (TSequence 308%N) []).
Definition md_t695 : ty := (Ty [] [] (TSequence 134%N) []).
Definition md_t696 : ty := (Ty ["polkadot_runtime_parachains"%string; "paras"%string; "ParaLifecycle"%string] [] (TVariant [(Variant "Onboarding"%string [] 0%N []); (Variant "Parathread"%string [] 1%N []); (Variant "Parachain"%string [] 2%N []); (Variant "UpgradingParathread"%string [] 3%N []); (Variant "DowngradingParachain"%string [] 4%N []); (Variant "OffboardingParathread"%string [] 5%N []); (Variant "OffboardingParachain"%string [] 6%N [])]) []).
Definition md_t697 : ty := (Ty [] [] (TTuple [134%N; 4%N]) []).
Definition md_t698 : ty := (Ty ["polkadot_runtime_parachains"%string; "paras"%string; "ParaPastCodeMeta"%string] [("N"%string,(Some 4%N))] (TComposite [(Field (Some "upgrade_times"%string) 699%N (Some "Vec<ReplacementTimes<N>>"%string) []); (Field (Some "last_pruned"%string) 270%N (Some "Option<N>"%string) [])]) []).
Definition md_t699 : ty := (Ty [] [] (TSequence 700%N) []).
Definition md_t700 : ty := (Ty ["polkadot_runtime_parachains"%string; "paras"%string; "ReplacementTimes"%string] [("N"%string,(Some 4%N))] (TComposite [(Field (Some "expected_at"%string) 4%N (Some "N"%string) []); (Field (Some "activated_at"%string) 4%N (Some "N"%string) [])]) []).
Definition md_t701 : ty := (Ty [] [] (TSequence 697%N) []).
Definition md_t702 : ty := (Ty ["polkadot_primitives"%string; "v5"%string; "UpgradeGoAhead"%string] [] (TVariant [(Variant "Abort"%string [] 0%N []); (Variant "GoAhead"%string [] 1%N [])]) []).
Definition md_t703 : ty := (Ty ["polkadot_primitives"%string; "v5"%string; "UpgradeRestriction"%string] [] (TVariant [(Variant "Present"%string [] 0%N [])]) []).
Definition md_t704 : ty := (Ty ["polkadot_runtime_parachains"%string; "paras"%string; "ParaGenesisArgs"%string] [] (TComposite [(Field (Some "genesis_head"%string) 316%N (Some "HeadData"%string) []); (Field (Some "validation_code"%string) 315%N (Some "ValidationCode"%string) []); (Field (Some "para_kind"%string) 44%N (Some "ParaKind"%string) [])]) []).
Definition md_t705 : ty := (Ty ["polkadot_runtime_parachains"%string; "paras"%string; "pallet"%string; "Error"%string] [("T"%string,None)] (TVariant [(Variant "NotRegistered"%string [] 0%N ["Para is not registered in our system."%string]); (Variant "CannotOnboard"%string [] 1%N ["Para cannot be onboarded because it is already tracked by our system."%string]); (Variant "CannotOffboard"%string [] 2%N ["Para cannot be offboarded at this time."%string]); (Variant "CannotUpgrade"%string [] 3%N ["Para cannot be upgraded to a lease holding parachain."%string]); (Variant "CannotDowngrade"%string [] 4%N ["Para cannot be downgraded to an on-demand parachain."%string]); (Variant "PvfCheckStatementStale"%string [] 5%N ["The statement for PVF pre-checking is stale."%string]); (Variant "PvfCheckStatementFuture"%string [] 6%N ["The statement for PVF pre-checking is for a future session."%string]); (Variant "PvfCheckValidatorIndexOutOfBounds"%string [] 7%N ["Claimed validator index is out of bounds."%string]); (Variant "PvfCheckInvalidSignature"%string [] 8%N ["The signature for the PVF pre-checking is invalid."%string]); (Variant "PvfCheckDoubleVote"%string [] 9%N ["The given validator already has cast a vote."%string]); (Variant "PvfCheckSubjectInvalid"%string [] 10%N ["The given PVF does not exist at the moment of process a vote."%string]); (Variant "CannotUpgradeCode"%string [] 11%N ["Parachain cannot currently schedule a code upgrade."%string])]) ["The `Error` enum of this pallet."%string]).
Definition md_t706 : ty := (Ty [] [] (TSequence 707%N) []).
Definition md_t707 : ty := (Ty ["polkadot_runtime_parachains"%string; "initializer"%string; "BufferedSessionChange"%string] [] (TComposite [(Field (Some "validators"%string) 668%N (Some "Vec<ValidatorId>"%string) []); (Field (Some "queued"%string) 668%N (Some "Vec<ValidatorId>"%string) []); (Field (Some "session_index"%string) 4%N (Some "SessionIndex"%string) [])]) []).
Definition md_t708 : ty := (Ty [] [] (TSequence 709%N) []).
Definition md_t709 : ty := (Ty ["polkadot_core_primitives"%string; "InboundDownwardMessage"%string] [("BlockNumber"%string,(Some 4%N))] (TComposite [(Field (Some "sent_at"%string) 4%N (Some "BlockNumber"%string) []); (Field (Some "msg"%string) 13%N (Some "DownwardMessage"%string) [])]) []).
Definition md_t710 : ty := (Ty ["polkadot_runtime_parachains"%string; "hrmp"%string; "HrmpOpenChannelRequest"%string] [] (TComposite [(Field (Some "confirmed"%string) 44%N (Some "bool"%string) []); (Field (Some "_age"%string) 4%N (Some "SessionIndex"%string) []); (Field (Some "sender_deposit"%string) 6%N (Some "Balance"%string) []); (Field (Some "max_message_size"%string) 4%N (Some "u32"%string) []); (Field (Some "max_capacity"%string) 4%N (Some "u32"%string) []); (Field (Some "max_total_size"%string) 4%N (Some "u32"%string) [])]) []).
Definition md_t711 : ty := (Ty [] [] (TSequence 331%N) []).
Definition md_t712 : ty := (Ty ["polkadot_runtime_parachains"%string; "hrmp"%string; "HrmpChannel"%string] [] (TComposite [(Field (Some "max_capacity"%string) 4%N (Some "u32"%string) []); (Field (Some "max_total_size"%string) 4%N (Some "u32"%string) []); (Field (Some "max_message_size"%string) 4%N (Some "u32"%string) []); (Field (Some "msg_count"%string) 4%N (Some "u32"%string) []); (Field (Some "total_size"%string) 4%N (Some "u32"%string) []); (Field (Some "mqc_head"%string) 145%N (Some "Option<Hash>"%string) []); (Field (Some "sender_deposit"%string) 6%N (Some "Balance"%string) []); (Field (Some "recipient_deposit"%string) 6%N (Some "Balance"%string) [])]) []).
Definition md_t713 : ty := (Ty [] [] (TSequence 714%N) []).
Definition md_t714 : ty := (Ty ["polkadot_core_primitives"%string; "InboundHrmpMessage"%string] [("BlockNumber"%string,(Some 4%N))] (TComposite [(Field (Some "sent_at"%string) 4%N (Some "BlockNumber"%string) []); (Field (Some "data"%string) 13%N (Some "sp_std::vec::Vec<u8>"%string) [])]) []).
Definition md_t715 : ty := (Ty [] [] (TSequence 716%N) []).
Definition md_t716 : ty := (Ty [] [] (TTuple [4%N; 695%N]) []).
Definition md_t717 : ty := (Ty ["polkadot_runtime_parachains"%string; "hrmp"%string; "pallet"%string; "Error"%string] [("T"%string,None)] (TVariant [(Variant "OpenHrmpChannelToSelf"%string [] 0%N ["The sender tried to open a channel to themselves."%string]); (Variant "OpenHrmpChannelInvalidRecipient"%string [] 1%N ["The recipient is not a valid para."%string]); (Variant "OpenHrmpChannelZeroCapacity"%string [] 2%N ["The requested capacity is zero."%string]); (Variant "OpenHrmpChannelCapacityExceedsLimit"%string [] 3%N ["The requested capacity exceeds the global limit."%string]); (Variant "OpenHrmpChannelZeroMessageSize"%string [] 4%N ["The requested maximum message size is 0."%string]); (Variant "OpenHrmpChannelMessageSizeExceedsLimit"%string [] 5%N ["The open request requested the message size that exceeds the global limit."%string]); (Variant "OpenHrmpChannelAlreadyExists"%string [] 6%N ["The channel already exists"%string]); (Variant "OpenHrmpChannelAlreadyRequested"%string [] 7%N ["There is already a request to open the same channel."%string]); (Variant "OpenHrmpChannelLimitExceeded"%string [] 8%N ["The sender already has the maximum number of allowed outbound channels."%string]); (Variant "AcceptHrmpChannelDoesntExist"%string [] 9%N ["The channel from the sender to the origin doesn't exist."%string]); (Variant "AcceptHrmpChannelAlreadyConfirmed"%string [] 10%N ["The channel is already confirmed."%string]); (Variant "AcceptHrmpChannelLimitExceeded"%string [] 11%N ["The recipient already has the maximum number of allowed inbound channels."%string]); (Variant "CloseHrmpChannelUnauthorized"%string [] 12%N ["The origin tries to close a channel where it is neither the sender nor the recipient."%string]); (Variant "CloseHrmpChannelDoesntExist"%string [] 13%N ["The channel to be closed doesn't exist."%string]); (Variant "CloseHrmpChannelAlreadyUnderway"%string [] 14%N ["The channel close request is already requested."%string]); (Variant "CancelHrmpOpenChannelUnauthorized"%string [] 15%N ["Canceling is requested by neither the sender nor recipient of the open channel request."%string]); (Variant "OpenHrmpChannelDoesntExist"%string [] 16%N ["The open request doesn't exist."%string]); (Variant "OpenHrmpChannelAlreadyConfirmed"%string [] 17%N ["Cannot cancel an HRMP open channel request because it is already confirmed."%string]); (Variant "WrongWitness"%string [] 18%N ["The provided witness data is wrong."%string])]) ["The `Error` enum of this pallet."%string]).
Definition md_t718 : ty := (Ty [] [] (TSequence 105%N) []).
Definition md_t719 : ty := (Ty ["polkadot_primitives"%string; "v5"%string; "SessionInfo"%string] [] (TComposite [(Field (Some "active_validator_indices"%string) 667%N (Some "Vec<ValidatorIndex>"%string) []); (Field (Some "random_seed"%string) 1%N (Some "[u8; 32]"%string) []); (Field (Some "dispute_period"%string) 4%N (Some "SessionIndex"%string) []); (Field (Some "validators"%string) 720%N (Some "IndexedVec<ValidatorIndex, ValidatorId>"%string) []); (Field (Some "discovery_keys"%string) 721%N (Some "Vec<AuthorityDiscoveryId>"%string) []); (Field (Some "assignment_keys"%string) 718%N (Some "Vec<AssignmentId>"%string) []); (Field (Some "validator_groups"%string) 722%N (Some "IndexedVec<GroupIndex, Vec<ValidatorIndex>>"%string) []); (Field (Some "n_cores"%string) 4%N (Some "u32"%string) []); (Field (Some "zeroth_delay_tranche_width"%string) 4%N (Some "u32"%string) []); (Field (Some "relay_vrf_modulo_samples"%string) 4%N (Some "u32"%string) []); (Field (Some "n_delay_tranches"%string) 4%N (Some "u32"%string) []); (Field (Some "no_show_slots"%string) 4%N (Some "u32"%string) []); (Field (Some "needed_approvals"%string) 4%N (Some "u32"%string) [])]) []).
Definition md_t720 : ty := (Ty ["polkadot_primitives"%string; "v5"%string; "IndexedVec"%string] [("K"%string,(Some 300%N)); ("V"%string,(Some 104%N))] (TComposite [(Field None 668%N (Some "Vec<V>"%string) [])]) []).
Definition md_t721 : ty := (Ty [] [] (TSequence 106%N) []).
Definition md_t722 : ty := (Ty ["polkadot_primitives"%string; "v5"%string; "IndexedVec"%string] [("K"%string,(Some 440%N)); ("V"%string,(Some 667%N))] (TComposite [(Field None 681%N (Some "Vec<V>"%string) [])]) []).
Definition md_t723 : ty := (Ty [] [] (TTuple [4%N; 321%N]) []).
Definition md_t724 : ty := (Ty ["polkadot_primitives"%string; "v5"%string; "DisputeState"%string] [("N"%string,(Some 4%N))] (TComposite [(Field (Some "validators_for"%string) 298%N (Some "BitVec<u8, bitvec::order::Lsb0>"%string) []); (Field (Some "validators_against"%string) 298%N (Some "BitVec<u8, bitvec::order::Lsb0>"%string) []); (Field (Some "start"%string) 4%N (Some "N"%string) []); (Field (Some "concluded_at"%string) 270%N (Some "Option<N>"%string) [])]) []).
Definition md_t725 : ty := (Ty ["BTreeSet"%string] [("T"%string,(Some 300%N))] (TComposite [(Field None 667%N None [])]) []).
Definition md_t726 : ty := (Ty ["polkadot_runtime_parachains"%string; "disputes"%string; "pallet"%string; "Error"%string] [("T"%string,None)] (TVariant [(Variant "DuplicateDisputeStatementSets"%string [] 0%N ["Duplicate dispute statement sets provided."%string]); (Variant "AncientDisputeStatement"%string [] 1%N ["Ancient dispute statement provided."%string]); (Variant "ValidatorIndexOutOfBounds"%string [] 2%N ["Validator index on statement is out of bounds for session."%string]); (Variant "InvalidSignature"%string [] 3%N ["Invalid signature on statement."%string]); (Variant "DuplicateStatement"%string [] 4%N ["Validator vote submitted more than once to dispute."%string]); (Variant "SingleSidedDispute"%string [] 5%N ["A dispute where there are only votes on one side."%string]); (Variant "MaliciousBacker"%string [] 6%N ["A dispute vote from a malicious backer."%string]); (Variant "MissingBackingVotes"%string [] 7%N ["No backing votes were provides along dispute statements."%string]); (Variant "UnconfirmedDispute"%string [] 8%N ["Unconfirmed dispute statement sets provided."%string])]) ["The `Error` enum of this pallet."%string]).
Definition md_t727 : ty := (Ty ["polkadot_primitives"%string; "v5"%string; "slashing"%string; "PendingSlashes"%string] [] (TComposite [(Field (Some "keys"%string) 728%N (Some "BTreeMap<ValidatorIndex, ValidatorId>"%string) []); (Field (Some "kind"%string) 336%N (Some "SlashingOffenceKind"%string) [])]) []).
Definition md_t728 : ty := (Ty ["BTreeMap"%string] [("K"%string,(Some 300%N)); ("V"%string,(Some 104%N))] (TComposite [(Field None 729%N None [])]) []).
Definition md_t729 : ty := (Ty [] [] (TSequence 730%N) []).
Definition md_t730 : ty := (Ty [] [] (TTuple [300%N; 104%N]) []).
Definition md_t731 : ty := (Ty ["polkadot_runtime_parachains"%string; "disputes"%string; "slashing"%string; "pallet"%string; "Error"%string] [("T"%string,None)] (TVariant [(Variant "InvalidKeyOwnershipProof"%string [] 0%N ["The key ownership proof is invalid."%string]); (Variant "InvalidSessionIndex"%string [] 1%N ["The session index is too old or invalid."%string]); (Variant "InvalidCandidateHash"%string [] 2%N ["The candidate hash is invalid."%string]); (Variant "InvalidValidatorIndex"%string [] 3%N ["There is no pending slash for the given validator index and time"%string; "slot."%string]); (Variant "ValidatorIndexIdMismatch"%string [] 4%N ["The validator index does not match the validator id."%string]); (Variant "DuplicateSlashingReport"%string [] 5%N ["The given slashing report is valid but already previously reported."%string])]) ["The `Error` enum of this pallet."%string]).
Definition md_t732 : ty := (Ty ["polkadot_runtime_common"%string; "paras_registrar"%string; "ParaInfo"%string] [("Account"%string,(Some 0%N)); ("Balance"%string,(Some 6%N))] (TComposite [(Field (Some "manager"%string) 0%N (Some "Account"%string) []); (Field (Some "deposit"%string) 6%N (Some "Balance"%string) []); (Field (Some "locked"%string) 733%N (Some "Option<bool>"%string) [])]) []).
Definition md_t733 : ty := (Ty ["Option"%string] [("T"%string,(Some 44%N))] (TVariant [(Variant "None"%string [] 0%N []); (Variant "Some"%string [(Field None 44%N None [])] 1%N [])]) []).
Definition md_t734 : ty := (Ty ["polkadot_runtime_common"%string; "paras_registrar"%string; "pallet"%string; "Error"%string] [("T"%string,None)] (TVariant [(Variant "NotRegistered"%string [] 0%N ["The ID is not registered."%string]); (Variant "AlreadyRegistered"%string [] 1%N ["The ID is already registered."%string]); (Variant "NotOwner"%string [] 2%N ["The caller is not the owner of this Id."%string]); (Variant "CodeTooLarge"%string [] 3%N ["Invalid para code size."%string]); (Variant "HeadDataTooLarge"%string [] 4%N ["Invalid para head data size."%string]); (Variant "NotParachain"%string [] 5%N ["Para is not a Parachain."%string]); (Variant "NotParathread"%string [] 6%N ["Para is not a Parathread (on-demand parachain)."%string]); (Variant "CannotDeregister"%string [] 7%N ["Cannot deregister para"%string]); (Variant "CannotDowngrade"%string [] 8%N ["Cannot schedule downgrade of lease holding parachain to on-demand parachain"%string]); (Variant "CannotUpgrade"%string [] 9%N ["Cannot schedule upgrade of on-demand parachain to lease holding parachain"%string]); (Variant "ParaLocked"%string [] 10%N ["Para is locked from manipulation by the manager. Must use parachain or relay chain"%string; "governance."%string]); (Variant "NotReserved"%string [] 11%N ["The ID given for registration has not been reserved."%string]); (Variant "EmptyCode"%string [] 12%N ["Registering parachain with empty code is not allowed."%string]); (Variant "CannotSwap"%string [] 13%N ["Cannot perform a parachain slot / lifecycle swap. Check that the state of both paras"%string; "are correct for the swap to work."%string])]) ["The `Error` enum of this pallet."%string]).
Definition md_t735 : ty := (Ty [] [] (TSequence 476%N) []).
Definition md_t736 : ty := (Ty ["polkadot_runtime_common"%string; "slots"%string; "pallet"%string; "Error"%string] [("T"%string,None)] (TVariant [(Variant "ParaNotOnboarding"%string [] 0%N ["The parachain ID is not onboarding."%string]); (Variant "LeaseError"%string [] 1%N ["There was an error with the lease."%string])]) ["The `Error` enum of this pallet."%string]).
Definition md_t737 : ty := (Ty [] [] (TTuple [0%N; 134%N]) []).
Definition md_t738 : ty := (Ty [] [] (TArray 36%N 739%N) []).
Definition md_t739 : ty := (Ty ["Option"%string] [("T"%string,(Some 740%N))] (TVariant [(Variant "None"%string [] 0%N []); (Variant "Some"%string [(Field None 740%N None [])] 1%N [])]) []).
Definition md_t740 : ty := (Ty [] [] (TTuple [0%N; 134%N; 6%N]) []).
Definition md_t741 : ty := (Ty ["polkadot_runtime_common"%string; "auctions"%string; "pallet"%string; "Error"%string] [("T"%string,None)] (TVariant [(Variant "AuctionInProgress"%string [] 0%N ["This auction is already in progress."%string]); (Variant "LeasePeriodInPast"%string [] 1%N ["The lease period is in the past."%string]); (Variant "ParaNotRegistered"%string [] 2%N ["Para is not registered"%string]); (Variant "NotCurrentAuction"%string [] 3%N ["Not a current auction."%string]); (Variant "NotAuction"%string [] 4%N ["Not an auction."%string]); (Variant "AuctionEnded"%string [] 5%N ["Auction has already ended."%string]); (Variant "AlreadyLeasedOut"%string [] 6%N ["The para is already leased out for part of this range."%string])]) ["The `Error` enum of this pallet."%string]).
Definition md_t742 : ty := (Ty ["polkadot_runtime_common"%string; "crowdloan"%string; "FundInfo"%string] [("AccountId"%string,(Some 0%N)); ("Balance"%string,(Some 6%N)); ("BlockNumber"%string,(Some 4%N)); ("LeasePeriod"%string,(Some 4%N))] (TComposite [(Field (Some "depositor"%string) 0%N (Some "AccountId"%string) []); (Field (Some "verifier"%string) 342%N (Some "Option<MultiSigner>"%string) []); (Field (Some "deposit"%string) 6%N (Some "Balance"%string) []); (Field (Some "raised"%string) 6%N (Some "Balance"%string) []); (Field (Some "end"%string) 4%N (Some "BlockNumber"%string) []); (Field (Some "cap"%string) 6%N (Some "Balance"%string) []); (Field (Some "last_contribution"%string) 743%N (Some "LastContribution<BlockNumber>"%string) []); (Field (Some "first_period"%string) 4%N (Some "LeasePeriod"%string) []); (Field (Some "last_period"%string) 4%N (Some "LeasePeriod"%string) []); (Field (Some "fund_index"%string) 4%N (Some "FundIndex"%string) [])]) []).
Definition md_t743 : ty := (Ty ["polkadot_runtime_common"%string; "crowdloan"%string; "LastContribution"%string] [("BlockNumber"%string,(Some 4%N))] (TVariant [(Variant "Never"%string [] 0%N []); (Variant "PreEnding"%string [(Field None 4%N (Some "u32"%string) [])] 1%N []); (Variant "Ending"%string [(Field None 4%N (Some "BlockNumber"%string) [])] 2%N [])]) []).
Definition md_t744 : ty := (Ty ["polkadot_runtime_common"%string; "crowdloan"%string; "pallet"%string; "Error"%string] [("T"%string,None)] (TVariant [(Variant "FirstPeriodInPast"%string [] 0%N ["The current lease period is more than the first lease period."%string]); (Variant "FirstPeriodTooFarInFuture"%string [] 1%N ["The first lease period needs to at least be less than 3 `max_value`."%string]); (Variant "LastPeriodBeforeFirstPeriod"%string [] 2%N ["Last lease period must be greater than first lease period."%string]); (Variant "LastPeriodTooFarInFuture"%string [] 3%N ["The last lease period cannot be more than 3 periods after the first period."%string]); (Variant "CannotEndInPast"%string [] 4%N ["The campaign ends before the current block number. The end must be in the future."%string]); (Variant "EndTooFarInFuture"%string [] 5%N ["The end date for this crowdloan is not sensible."%string]); (Variant "Overflow"%string [] 6%N ["There was an overflow."%string]); (Variant "ContributionTooSmall"%string [] 7%N ["The contribution was below the minimum, `MinContribution`."%string]); (Variant "InvalidParaId"%string [] 8%N ["Invalid fund index."%string]); (Variant "CapExceeded"%string [] 9%N ["Contributions exceed maximum amount."%string]); (Variant "ContributionPeriodOver"%string [] 10%N ["The contribution period has already ended."%string]); (Variant "InvalidOrigin"%string [] 11%N ["The origin of this call is invalid."%string]); (Variant "NotParachain"%string [] 12%N ["This crowdloan does not correspond to a parachain."%string]); (Variant "LeaseActive"%string [] 13%N ["This parachain lease is still active and retirement cannot yet begin."%string]); (Variant "BidOrLeaseActive"%string [] 14%N ["This parachain's bid or lease is still active and withdraw cannot yet begin."%string]); (Variant "FundNotEnded"%string [] 15%N ["The crowdloan has not yet ended."%string]); (Variant "NoContributions"%string [] 16%N ["There are no contributions stored in this crowdloan."%string]); (Variant "NotReadyToDissolve"%string [] 17%N ["The crowdloan is not ready to dissolve. Potentially still has a slot or in retirement"%string; "period."%string]); (Variant "InvalidSignature"%string [] 18%N ["Invalid signature."%string]); (Variant "MemoTooLarge"%string [] 19%N ["The provided memo is too large."%string]); (Variant "AlreadyInNewRaise"%string [] 20%N ["The fund is already in `NewRaise`"%string]); (Variant "VrfDelayInProgress"%string [] 21%N ["No contributions allowed during the VRF delay"%string]); (Variant "NoLeasePeriod"%string [] 22%N ["A lease period has not started yet, due to an offset in the starting block."%string])]) ["The `Error` enum of this pallet."%string]).
Definition md_t745 : ty := (Ty ["pallet_xcm"%string; "pallet"%string; "QueryStatus"%string] [("BlockNumber"%string,(Some 4%N))] (TVariant [(Variant "Pending"%string [(Field (Some "responder"%string) 350%N (Some "VersionedMultiLocation"%string) []); (Field (Some "maybe_match_querier"%string) 746%N (Some "Option<VersionedMultiLocation>"%string) []); (Field (Some "maybe_notify"%string) 747%N (Some "Option<(u8, u8)>"%string) []); (Field (Some "timeout"%string) 4%N (Some "BlockNumber"%string) [])] 0%N []); (Variant "VersionNotifier"%string [(Field (Some "origin"%string) 350%N (Some "VersionedMultiLocation"%string) []); (Field (Some "is_active"%string) 44%N (Some "bool"%string) [])] 1%N []); (Variant "Ready"%string [(Field (Some "response"%string) 749%N (Some "VersionedResponse"%string) []); (Field (Some "at"%string) 4%N (Some "BlockNumber"%string) [])] 2%N [])]) []).
Definition md_t746 : ty := (Ty ["Option"%string] [("T"%string,(Some 350%N))] (TVariant [(Variant "None"%string [] 0%N []); (Variant "Some"%string [(Field None 350%N None [])] 1%N [])]) []).
Definition md_t747 : ty := (Ty ["Option"%string] [("T"%string,(Some 748%N))] (TVariant [(Variant "None"%string [] 0%N []); (Variant "Some"%string [(Field None 748%N None [])] 1%N [])]) []).
Definition md_t748 : ty := (Ty [] [] (TTuple [2%N; 2%N]) []).
Definition md_t749 : ty := (Ty ["xcm"%string; "VersionedResponse"%string] [] (TVariant [(Variant "V2"%string [(Field None 368%N (Some "v2::Response"%string) [])] 2%N []); (Variant "V3"%string [(Field None 387%N (Some "v3::Response"%string) [])] 3%N [])]) []).
Definition md_t750 : ty := (Ty [] [] (TTuple [4%N; 350%N]) []).
Definition md_t751 : ty := (Ty [] [] (TTuple [11%N; 9%N; 4%N]) []).
Definition md_t752 : ty := (Ty ["bounded_collections"%string; "bounded_vec"%string; "BoundedVec"%string] [("T"%string,(Some 753%N)); ("S"%string,None)] (TComposite [(Field None 754%N (Some "Vec<T>"%string) [])]) []).
Definition md_t753 : ty := (Ty [] [] (TTuple [350%N; 4%N]) []).
Definition md_t754 : ty := (Ty [] [] (TSequence 753%N) []).
Definition md_t755 : ty := (Ty ["pallet_xcm"%string; "pallet"%string; "VersionMigrationStage"%string] [] (TVariant [(Variant "MigrateSupportedVersion"%string [] 0%N []); (Variant "MigrateVersionNotifiers"%string [] 1%N []); (Variant "NotifyCurrentTargets"%string [(Field None 756%N (Some "Option<Vec<u8>>"%string) [])] 2%N []); (Variant "MigrateAndNotifyOldTargets"%string [] 3%N [])]) []).
Definition md_t756 : ty := (Ty ["Option"%string] [("T"%string,(Some 13%N))] (TVariant [(Variant "None"%string [] 0%N []); (Variant "Some"%string [(Field None 13%N None [])] 1%N [])]) []).
Definition md_t757 : ty := (Ty [] [] (TTuple [4%N; 0%N; 758%N]) []).
Definition md_t758 : ty := (Ty ["xcm"%string; "VersionedAssetId"%string] [] (TVariant [(Variant "V3"%string [(Field None 384%N (Some "v3::AssetId"%string) [])] 3%N [])]) []).
Definition md_t759 : ty := (Ty ["pallet_xcm"%string; "pallet"%string; "RemoteLockedFungibleRecord"%string] [("ConsumerIdentifier"%string,(Some 34%N)); ("MaxConsumers"%string,None)] (TComposite [(Field (Some "amount"%string) 6%N (Some "u128"%string) []); (Field (Some "owner"%string) 350%N (Some "VersionedMultiLocation"%string) []); (Field (Some "locker"%string) 350%N (Some "VersionedMultiLocation"%string) []); (Field (Some "consumers"%string) 760%N (Some "BoundedVec<(ConsumerIdentifier, u128), MaxConsumers>"%string) [])]) []).
Definition md_t760 : ty := (Ty ["bounded_collections"%string; "bounded_vec"%string; "BoundedVec"%string] [("T"%string,(Some 761%N)); ("S"%string,None)] (TComposite [(Field None 762%N (Some "Vec<T>"%string) [])]) []).
Definition md_t761 : ty := (Ty [] [] (TTuple [34%N; 6%N]) []).
Definition md_t762 : ty := (Ty [] [] (TSequence 761%N) []).
Definition md_t763 : ty := (Ty ["bounded_collections"%string; "bounded_vec"%string; "BoundedVec"%string] [("T"%string,(Some 764%N)); ("S"%string,None)] (TComposite [(Field None 765%N (Some "Vec<T>"%string) [])]) []).
Definition md_t764 : ty := (Ty [] [] (TTuple [6%N; 350%N]) []).
Definition md_t765 : ty := (Ty [] [] (TSequence 764%N) []).
Definition md_t766 : ty := (Ty ["pallet_xcm"%string; "pallet"%string; "Error"%string] [("T"%string,None)] (TVariant [(Variant "Unreachable"%string [] 0%N ["The desired destination was unreachable, generally because there is a no way of routing"%string; "to it."%string]); (Variant "SendFailure"%string [] 1%N ["There was some other issue (i.e. not to do with routing) in sending the message."%string; "Perhaps a lack of space for buffering the message."%string]); (Variant "Filtered"%string [] 2%N ["The message execution fails the filter."%string]); (Variant "UnweighableMessage"%string [] 3%N ["The message's weight could not be determined."%string]); (Variant "DestinationNotInvertible"%string [] 4%N ["The destination `MultiLocation` provided cannot be inverted."%string]); (Variant "Empty"%string [] 5%N ["The assets to be sent are empty."%string]); (Variant "CannotReanchor"%string [] 6%N ["Could not re-anchor the assets to declare the fees for the destination chain."%string]); (Variant "TooManyAssets"%string [] 7%N ["Too many assets have been attempted for transfer."%string]); (Variant "InvalidOrigin"%string [] 8%N ["Origin is invalid for sending."%string]); (Variant "BadVersion"%string [] 9%N ["The version of the `Versioned` value used is not able to be interpreted."%string]); (Variant "BadLocation"%string [] 10%N ["The given location could not be used (e.g. because it cannot be expressed in the"%string; "desired version of XCM)."%string]); (Variant "NoSubscription"%string [] 11%N ["The referenced subscription could not be found."%string]); (Variant "AlreadySubscribed"%string [] 12%N ["The location is invalid since it already has a subscription from us."%string]); (Variant "InvalidAsset"%string [] 13%N ["Invalid asset for the operation."%string]); (Variant "LowBalance"%string [] 14%N ["The owner does not own (all) of the asset that they wish to do the operation on."%string]); (Variant "TooManyLocks"%string [] 15%N ["The asset owner has too many locks on the asset."%string]); (Variant "AccountNotSovereign"%string [] 16%N ["The given account is not an identifiable sovereign account for any location."%string]); (Variant "FeesNotMet"%string [] 17%N ["The operation required fees to be paid which the initiator could not meet."%string]); (Variant "LockNotFound"%string [] 18%N ["A remote lock with the corresponding data could not be found."%string]); (Variant "InUse"%string [] 19%N ["The unlock operation cannot succeed because there are still consumers of the lock."%string])]) ["The `Error` enum of this pallet."%string]).
Definition md_t767 : ty := (Ty ["pallet_message_queue"%string; "BookState"%string] [("MessageOrigin"%string,(Some 413%N))] (TComposite [(Field (Some "begin"%string) 4%N (Some "PageIndex"%string) []); (Field (Some "end"%string) 4%N (Some "PageIndex"%string) []); (Field (Some "count"%string) 4%N (Some "PageIndex"%string) []); (Field (Some "ready_neighbours"%string) 768%N (Some "Option<Neighbours<MessageOrigin>>"%string) []); (Field (Some "message_count"%string) 11%N (Some "u64"%string) []); (Field (Some "size"%string) 11%N (Some "u64"%string) [])]) []).
Definition md_t768 : ty := (Ty ["Option"%string] [("T"%string,(Some 769%N))] (TVariant [(Variant "None"%string [] 0%N []); (Variant "Some"%string [(Field None 769%N None [])] 1%N [])]) []).
Definition md_t769 : ty := (Ty ["pallet_message_queue"%string; "Neighbours"%string] [("MessageOrigin"%string,(Some 413%N))] (TComposite [(Field (Some "prev"%string) 413%N (Some "MessageOrigin"%string) []); (Field (Some "next"%string) 413%N (Some "MessageOrigin"%string) [])]) []).
Definition md_t770 : ty := (Ty [] [] (TTuple [413%N; 4%N]) []).
Definition md_t771 : ty := (Ty ["pallet_message_queue"%string; "Page"%string] [("Size"%string,(Some 4%N)); ("HeapSize"%string,None)] (TComposite [(Field (Some "remaining"%string) 4%N (Some "Size"%string) []); (Field (Some "remaining_size"%string) 4%N (Some "Size"%string) []); (Field (Some "first_index"%string) 4%N (Some "Size"%string) []); (Field (Some "first"%string) 4%N (Some "Size"%string) []); (Field (Some "last"%string) 4%N (Some "Size"%string) []); (Field (Some "heap"%string) 772%N (Some "BoundedVec<u8, IntoU32<HeapSize, Size>>"%string) [])]) []).
Definition md_t772 : ty := (Ty ["bounded_collections"%string; "bounded_vec"%string; "BoundedVec"%string] [("T"%string,(Some 2%N)); ("S"%string,None)] (TComposite [(Field None 13%N (Some "Vec<T>"%string) [])]) []).
Definition md_t773 : ty := (Ty ["pallet_message_queue"%string; "pallet"%string; "Error"%string] [("T"%string,None)] (TVariant [(Variant "NotReapable"%string [] 0%N ["Page is not reapable because it has items remaining to be processed and is not old"%string; "enough."%string]); (Variant "NoPage"%string [] 1%N ["Page to be reaped does not exist."%string]); (Variant "NoMessage"%string [] 2%N ["The referenced message could not be found."%string]); (Variant "AlreadyProcessed"%string [] 3%N ["The message was already processed and cannot be processed again."%string]); (Variant "Queued"%string [] 4%N ["The message is queued for future execution."%string]); (Variant "InsufficientWeight"%string [] 5%N ["There is temporarily not enough weight to continue servicing messages."%string]); (Variant "TemporarilyUnprocessable"%string [] 6%N ["This message is temporarily unprocessable."%string; ""%string; "Such errors are expected, but not guaranteed, to resolve themselves eventually through"%string; "retrying."%string]); (Variant "QueuePaused"%string [] 7%N ["The queue is paused and no message can be executed from it."%string; ""%string; "This can change at any time and may resolve in the future by re-trying."%string])]) ["The `Error` enum of this pallet."%string]).
Definition md_t774 : ty := (Ty [] [] (TTuple [775%N; 776%N; 777%N; 778%N; 779%N; 781%N; 782%N; 783%N; 784%N]) []).
Definition md_t775 : ty := (Ty ["frame_system"%string; "extensions"%string; "check_non_zero_sender"%string; "CheckNonZeroSender"%string] [("T"%string,None)] (TComposite []) []).
Definition md_t776 : ty := (Ty ["frame_system"%string; "extensions"%string; "check_spec_version"%string; "CheckSpecVersion"%string] [("T"%string,None)] (TComposite []) []).
Definition md_t777 : ty := (Ty ["frame_system"%string; "extensions"%string; "check_tx_version"%string; "CheckTxVersion"%string] [("T"%string,None)] (TComposite []) []).
Definition md_t778 : ty := (Ty ["frame_system"%string; "extensions"%string; "check_genesis"%string; "CheckGenesis"%string] [("T"%string,None)] (TComposite []) []).
Definition md_t779 : ty := (Ty ["frame_system"%string; "extensions"%string; "check_mortality"%string; "CheckMortality"%string] [("T"%string,None)] (TComposite [(Field None 780%N (Some "Era"%string) [])]) []).
Definition md_t780 : ty := (Ty ["sp_runtime"%string; "generic"%string; "era"%string; "Era"%string] [] (TVariant [(Variant "Immortal"%string [] 0%N []); (Variant "Mortal1"%string [(Field None 2%N None [])] 1%N []); (Variant "Mortal2"%string [(Field None 2%N None [])] 2%N []); (Variant "Mortal3"%string [(Field None 2%N None [])] 3%N []); (Variant "Mortal4"%string [(Field None 2%N None [])] 4%N []); (Variant "Mortal5"%string [(Field None 2%N None [])] 5%N []); (Variant "Mortal6"%string [(Field None 2%N None [])] 6%N []); (Variant "Mortal7"%string [(Field None 2%N None [])] 7%N []); (Variant "Mortal8"%string [(Field None 2%N None [])] 8%N []); (Variant "Mortal9"%string [(Field None 2%N None [])] 9%N []); (Variant "Mortal10"%string [(Field None 2%N None [])] 10%N []); (Variant "Mortal11"%string [(Field None 2%N None [])] 11%N []); (Variant "Mortal12"%string [(Field None 2%N None [])] 12%N []); (Variant "Mortal13"%string [(Field None 2%N None [])] 13%N []); (Variant "Mortal14"%string [(Field None 2%N None [])] 14%N []); (Variant "Mortal15"%string [(Field None 2%N None [])] 15%N []); (Variant "Mortal16"%string [(Field None 2%N None [])] 16%N []); (Variant "Mortal17"%string [(Field None 2%N None [])] 17%N []); (Variant "Mortal18"%string [(Field None 2%N None [])] 18%N []); (Variant "Mortal19"%string [(Field None 2%N None [])] 19%N []); (Variant "Mortal20"%string [(Field None 2%N None [])] 20%N []); (Variant "Mortal21"%string [(Field None 2%N None [])] 21%N []); (Variant "Mortal22"%string [(Field None 2%N None [])] 22%N []); (Variant "Mortal23"%string [(Field None 2%N None [])] 23%N []); (Variant "Mortal24"%string [(Field None 2%N None [])] 24%N []); (Variant "Mortal25"%string [(Field None 2%N None [])] 25%N []); (Variant "Mortal26"%string [(Field None 2%N None [])] 26%N []); (Variant "Mortal27"%string [(Field None 2%N None [])] 27%N []); (Variant "Mortal28"%string [(Field None 2%N None [])] 28%N []); (Variant "Mortal29"%string [(Field None 2%N None [])] 29%N []); (Variant "Mortal30"%string [(Field None 2%N None [])] 30%N []); (Variant "Mortal31"%string [(Field None 2%N None [])] 31%N []); (Variant "Mortal32"%string [(Field None 2%N None [])] 32%N []); (Variant "Mortal33"%string [(Field None 2%N None [])] 33%N []); (Variant "Mortal34"%string [(Field None 2%N None [])] 34%N []); (Variant "Mortal35"%string [(Field None 2%N None [])] 35%N []); (Variant "Mortal36"%string [(Field None 2%N None [])] 36%N []); (Variant "Mortal37"%string [(Field None 2%N None [])] 37%N []); (Variant "Mortal38"%string [(Field None 2%N None [])] 38%N []); (Variant "Mortal39"%string [(Field None 2%N None [])] 39%N []); (Variant "Mortal40"%string [(Field None 2%N None [])] 40%N []); (Variant "Mortal41"%string [(Field None 2%N None [])] 41%N []); (Variant "Mortal42"%string [(Field None 2%N None [])] 42%N []); (Variant "Mortal43"%string [(Field None 2%N None [])] 43%N []); (Variant "Mortal44"%string [(Field None 2%N None [])] 44%N []); (Variant "Mortal45"%string [(Field None 2%N None [])] 45%N []); (Variant "Mortal46"%string [(Field None 2%N None [])] 46%N []); (Variant "Mortal47"%string [(Field None 2%N None [])] 47%N []); (Variant "Mortal48"%string [(Field None 2%N None [])] 48%N []); (Variant "Mortal49"%string [(Field None 2%N None [])] 49%N []); (Variant "Mortal50"%string [(Field None 2%N None [])] 50%N []); (Variant "Mortal51"%string [(Field None 2%N None [])] 51%N []); (Variant "Mortal52"%string [(Field None 2%N None [])] 52%N []); (Variant "Mortal53"%string [(Field None 2%N None [])] 53%N []); (Variant "Mortal54"%string [(Field None 2%N None [])] 54%N []); (Variant "Mortal55"%string [(Field None 2%N None [])] 55%N []); (Variant "Mortal56"%string [(Field None 2%N None [])] 56%N []); (Variant "Mortal57"%string [(Field None 2%N None [])] 57%N []); (Variant "Mortal58"%string [(Field None 2%N None [])] 58%N []); (Variant "Mortal59"%string [(Field None 2%N None [])] 59%N []); (Variant "Mortal60"%string [(Field None 2%N None [])] 60%N []); (Variant "Mortal61"%string [(Field None 2%N None [])] 61%N []); (Variant "Mortal62"%string [(Field None 2%N None [])] 62%N []); (Variant "Mortal63"%string [(Field None 2%N None [])] 63%N []); (Variant "Mortal64"%string [(Field None 2%N None [])] 64%N []); (Variant "Mortal65"%string [(Field None 2%N None [])] 65%N []); (Variant "Mortal66"%string [(Field None 2%N None [])] 66%N []); (Variant "Mortal67"%string [(Field None 2%N None [])] 67%N []); (Variant "Mortal68"%string [(Field None 2%N None [])] 68%N []); (Variant "Mortal69"%string [(Field None 2%N None [])] 69%N []); (Variant "Mortal70"%string [(Field None 2%N None [])] 70%N []); (Variant "Mortal71"%string [(Field None 2%N None [])] 71%N []); (Variant "Mortal72"%string [(Field None 2%N None [])] 72%N []); (Variant "Mortal73"%string [(Field None 2%N None [])] 73%N []); (Variant "Mortal74"%string [(Field None 2%N None [])] 74%N []); (Variant "Mortal75"%string [(Field None 2%N None [])] 75%N []); (Variant "Mortal76"%string [(Field None 2%N None [])] 76%N []); (Variant "Mortal77"%string [(Field None 2%N None [])] 77%N []); (Variant "Mortal78"%string [(Field None 2%N None [])] 78%N []); (Variant "Mortal79"%string [(Field None 2%N None [])] 79%N []); (Variant "Mortal80"%string [(Field None 2%N None [])] 80%N []); (Variant "Mortal81"%string [(Field None 2%N None [])] 81%N []); (Variant "Mortal82"%string [(Field None 2%N None [])] 82%N []); (Variant "Mortal83"%string [(Field None 2%N None [])] 83%N []); (Variant "Mortal84"%string [(Field None 2%N None [])] 84%N []); (Variant "Mortal85"%string [(Field None 2%N None [])] 85%N []); (Variant "Mortal86"%string [(Field None 2%N None [])] 86%N []); (Variant "Mortal87"%string [(Field None 2%N None [])] 87%N []); (Variant "Mortal88"%string [(Field None 2%N None [])] 88%N []); (Variant "Mortal89"%string [(Field None 2%N None [])] 89%N []); (Variant "Mortal90"%string [(Field None 2%N None [])] 90%N []); (Variant "Mortal91"%string [(Field None 2%N None [])] 91%N []); (Variant "Mortal92"%string [(Field None 2%N None [])] 92%N []); (Variant "Mortal93"%string [(Field None 2%N None [])] 93%N []); (Variant "Mortal94"%string [(Field None 2%N None [])] 94%N []); (Variant "Mortal95"%string [(Field None 2%N None [])] 95%N []); (Variant "Mortal96"%string [(Field None 2%N None [])] 96%N []); (Variant "Mortal97"%string [(Field None 2%N None [])] 97%N []); (Variant "Mortal98"%string [(Field None 2%N None [])] 98%N []); (Variant "Mortal99"%string [(Field None 2%N None [])] 99%N []); (Variant "Mortal100"%string [(Field None 2%N None [])] 100%N []); (Variant "Mortal101"%string [(Field None 2%N None [])] 101%N []); (Variant "Mortal102"%string [(Field None 2%N None [])] 102%N []); (Variant "Mortal103"%string [(Field None 2%N None [])] 103%N []); (Variant "Mortal104"%string [(Field None 2%N None [])] 104%N []); (Variant "Mortal105"%string [(Field None 2%N None [])] 105%N []); (Variant "Mortal106"%string [(Field None 2%N None [])] 106%N []); (Variant "Mortal107"%string [(Field None 2%N None [])] 107%N []); (Variant "Mortal108"%string [(Field None 2%N None [])] 108%N []); (Variant "Mortal109"%string [(Field None 2%N None [])] 109%N []); (Variant "Mortal110"%string [(Field None 2%N None [])] 110%N []); (Variant "Mortal111"%string [(Field None 2%N None [])] 111%N []); (Variant "Mortal112"%string [(Field None 2%N None [])] 112%N []); (Variant "Mortal113"%string [(Field None 2%N None [])] 113%N []); (Variant "Mortal114"%string [(Field None 2%N None [])] 114%N []); (Variant "Mortal115"%string [(Field None 2%N None [])] 115%N []); (Variant "Mortal116"%string [(Field None 2%N None [])] 116%N []); (Variant "Mortal117"%string [(Field None 2%N None [])] 117%N []); (Variant "Mortal118"%string [(Field None 2%N None [])] 118%N []); (Variant "Mortal119"%string [(Field None 2%N None [])] 119%N []); (Variant "Mortal120"%string [(Field None 2%N None [])] 120%N []); (Variant "Mortal121"%string [(Field None 2%N None [])] 121%N []); (Variant "Mortal122"%string [(Field None 2%N None [])] 122%N []); (Variant "Mortal123"%string [(Field None 2%N None [])] 123%N []); (Variant "Mortal124"%string [(Field None 2%N None [])] 124%N []); (Variant "Mortal125"%string [(Field None 2%N None [])] 125%N []); (Variant "Mortal126"%string [(Field None 2%N None [])] 126%N []); (Variant "Mortal127"%string [(Field None 2%N None [])] 127%N []); (Variant "Mortal128"%string [(Field None 2%N None [])] 128%N []); (Variant "Mortal129"%string [(Field None 2%N None [])] 129%N []); (Variant "Mortal130"%string [(Field None 2%N None [])] 130%N []); (Variant "Mortal131"%string [(Field None 2%N None [])] 131%N []); (Variant "Mortal132"%string [(Field None 2%N None [])] 132%N []); (Variant "Mortal133"%string [(Field None 2%N None [])] 133%N []); (Variant "Mortal134"%string [(Field None 2%N None [])] 134%N []); (Variant "Mortal135"%string [(Field None 2%N None [])] 135%N []); (Variant "Mortal136"%string [(Field None 2%N None [])] 136%N []); (Variant "Mortal137"%string [(Field None 2%N None [])] 137%N []); (Variant "Mortal138"%string [(Field None 2%N None [])] 138%N []); (Variant "Mortal139"%string [(Field None 2%N None [])] 139%N []); (Variant "Mortal140"%string [(Field None 2%N None [])] 140%N []); (Variant "Mortal141"%string [(Field None 2%N None [])] 141%N []); (Variant "Mortal142"%string [(Field None 2%N None [])] 142%N []); (Variant "Mortal143"%string [(Field None 2%N None [])] 143%N []); (Variant "Mortal144"%string [(Field None 2%N None [])] 144%N []); (Variant "Mortal145"%string [(Field None 2%N None [])] 145%N []); (Variant "Mortal146"%string [(Field None 2%N None [])] 146%N []); (Variant "Mortal147"%string [(Field None 2%N None [])] 147%N []); (Variant "Mortal148"%string [(Field None 2%N None [])] 148%N []); (Variant "Mortal149"%string [(Field None 2%N None [])] 149%N []); (Variant "Mortal150"%string [(Field None 2%N None [])] 150%N []); (Variant "Mortal151"%string [(Field None 2%N None [])] 151%N []); (Variant "Mortal152"%string [(Field None 2%N None [])] 152%N []); (Variant "Mortal153"%string [(Field None 2%N None [])] 153%N []); (Variant "Mortal154"%string [(Field None 2%N None [])] 154%N []); (Variant "Mortal155"%string [(Field None 2%N None [])] 155%N []); (Variant "Mortal156"%string [(Field None 2%N None [])] 156%N []); (Variant "Mortal157"%string [(Field None 2%N None [])] 157%N []); (Variant "Mortal158"%string [(Field None 2%N None [])] 158%N []); (Variant "Mortal159"%string [(Field None 2%N None [])] 159%N []); (Variant "Mortal160"%string [(Field None 2%N None [])] 160%N []); (Variant "Mortal161"%string [(Field None 2%N None [])] 161%N []); (Variant "Mortal162"%string [(Field None 2%N None [])] 162%N []); (Variant "Mortal163"%string [(Field None 2%N None [])] 163%N []); (Variant "Mortal164"%string [(Field None 2%N None [])] 164%N []); (Variant "Mortal165"%string [(Field None 2%N None [])] 165%N []); (Variant "Mortal166"%string [(Field None 2%N None [])] 166%N []); (Variant "Mortal167"%string [(Field None 2%N None [])] 167%N []); (Variant "Mortal168"%string [(Field None 2%N None [])] 168%N []); (Variant "Mortal169"%string [(Field None 2%N None [])] 169%N []); (Variant "Mortal170"%string [(Field None 2%N None [])] 170%N []); (Variant "Mortal171"%string [(Field None 2%N None [])] 171%N []); (Variant "Mortal172"%string [(Field None 2%N None [])] 172%N []); (Variant "Mortal173"%string [(Field None 2%N None [])] 173%N []); (Variant "Mortal174"%string [(Field None 2%N None [])] 174%N []); (Variant "Mortal175"%string [(Field None 2%N None [])] 175%N []); (Variant "Mortal176"%string [(Field None 2%N None [])] 176%N []); (Variant "Mortal177"%string [(Field None 2%N None [])] 177%N []); (Variant "Mortal178"%string [(Field None 2%N None [])] 178%N []); (Variant "Mortal179"%string [(Field None 2%N None [])] 179%N []); (Variant "Mortal180"%string [(Field None 2%N None [])] 180%N []); (Variant "Mortal181"%string [(Field None 2%N None [])] 181%N []); (Variant "Mortal182"%string [(Field None 2%N None [])] 182%N []); (Variant "Mortal183"%string [(Field None 2%N None [])] 183%N []); (Variant "Mortal184"%string [(Field None 2%N None [])] 184%N []); (Variant "Mortal185"%string [(Field None 2%N None [])] 185%N []); (Variant "Mortal186"%string [(Field None 2%N None [])] 186%N []); (Variant "Mortal187"%string [(Field None 2%N None [])] 187%N []); (Variant "Mortal188"%string [(Field None 2%N None [])] 188%N []); (Variant "Mortal189"%string [(Field None 2%N None [])] 189%N []); (Variant "Mortal190"%string [(Field None 2%N None [])] 190%N []); (Variant "Mortal191"%string [(Field None 2%N None [])] 191%N []); (Variant "Mortal192"%string [(Field None 2%N None [])] 192%N []); (Variant "Mortal193"%string [(Field None 2%N None [])] 193%N []); (Variant "Mortal194"%string [(Field None 2%N None [])] 194%N []); (Variant "Mortal195"%string [(Field None 2%N None [])] 195%N []); (Variant "Mortal196"%string [(Field None 2%N None [])] 196%N []); (Variant "Mortal197"%string [(Field None 2%N None [])] 197%N []); (Variant "Mortal198"%string [(Field None 2%N None [])] 198%N []); (Variant "Mortal199"%string [(Field None 2%N None [])] 199%N []); (Variant "Mortal200"%string [(Field None 2%N None [])] 200%N []); (Variant "Mortal201"%string [(Field None 2%N None [])] 201%N []); (Variant "Mortal202"%string [(Field None 2%N None [])] 202%N []); (Variant "Mortal203"%string [(Field None 2%N None [])] 203%N []); (Variant "Mortal204"%string [(Field None 2%N None [])] 204%N []); (Variant "Mortal205"%string [(Field None 2%N None [])] 205%N []); (Variant "Mortal206"%string [(Field None 2%N None [])] 206%N []); (Variant "Mortal207"%string [(Field None 2%N None [])] 207%N []); (Variant "Mortal208"%string [(Field None 2%N None [])] 208%N []); (Variant "Mortal209"%string [(Field None 2%N None [])] 209%N []); (Variant "Mortal210"%string [(Field None 2%N None [])] 210%N []); (Variant "Mortal211"%string [(Field None 2%N None [])] 211%N []); (Variant "Mortal212"%string [(Field None 2%N None [])] 212%N []); (Variant "Mortal213"%string [(Field None 2%N None [])] 213%N []); (Variant "Mortal214"%string [(Field None 2%N None [])] 214%N []); (Variant "Mortal215"%string [(Field None 2%N None [])] 215%N []); (Variant "Mortal216"%string [(Field None 2%N None [])] 216%N []); (Variant "Mortal217"%string [(Field None 2%N None [])] 217%N []); (Variant "Mortal218"%string [(Field None 2%N None [])] 218%N []); (Variant "Mortal219"%string [(Field None 2%N None [])] 219%N []); (Variant "Mortal220"%string [(Field None 2%N None [])] 220%N []); (Variant "Mortal221"%string [(Field None 2%N None [])] 221%N []); (Variant "Mortal222"%string [(Field None 2%N None [])] 222%N []); (Variant "Mortal223"%string [(Field None 2%N None [])] 223%N []); (Variant "Mortal224"%string [(Field None 2%N None [])] 224%N []); (Variant "Mortal225"%string [(Field None 2%N None [])] 225%N []); (Variant "Mortal226"%string [(Field None 2%N None [])] 226%N []); (Variant "Mortal227"%string [(Field None 2%N None [])] 227%N []); (Variant "Mortal228"%string [(Field None 2%N None [])] 228%N []); (Variant "Mortal229"%string [(Field None 2%N None [])] 229%N []); (Variant "Mortal230"%string [(Field None 2%N None [])] 230%N []); (Variant "Mortal231"%string [(Field None 2%N None [])] 231%N []); (Variant "Mortal232"%string [(Field None 2%N None [])] 232%N []); (Variant "Mortal233"%string [(Field None 2%N None [])] 233%N []); (Variant "Mortal234"%string [(Field None 2%N None [])] 234%N []); (Variant "Mortal235"%string [(Field None 2%N None [])] 235%N []); (Variant "Mortal236"%string [(Field None 2%N None [])] 236%N []); (Variant "Mortal237"%string [(Field None 2%N None [])] 237%N []); (Variant "Mortal238"%string [(Field None 2%N None [])] 238%N []); (Variant "Mortal239"%string [(Field None 2%N None [])] 239%N []); (Variant "Mortal240"%string [(Field None 2%N None [])] 240%N []); (Variant "Mortal241"%string [(Field None 2%N None [])] 241%N []); (Variant "Mortal242"%string [(Field None 2%N None [])] 242%N []); (Variant "Mortal243"%string [(Field None 2%N None [])] 243%N []); (Variant "Mortal244"%string [(Field None 2%N None [])] 244%N []); (Variant "Mortal245"%string [(Field None 2%N None [])] 245%N []); (Variant "Mortal246"%string [(Field None 2%N None [])] 246%N []); (Variant "Mortal247"%string [(Field None 2%N None [])] 247%N []); (Variant "Mortal248"%string [(Field None 2%N None [])] 248%N []); (Variant "Mortal249"%string [(Field None 2%N None [])] 249%N []); (Variant "Mortal250"%string [(Field None 2%N None [])] 250%N []); (Variant "Mortal251"%string [(Field None 2%N None [])] 251%N []); (Variant "Mortal252"%string [(Field None 2%N None [])] 252%N []); (Variant "Mortal253"%string [(Field None 2%N None [])] 253%N []); (Variant "Mortal254"%string [(Field None 2%N None [])] 254%N []); (Variant "Mortal255"%string [(Field None 2%N None [])] 255%N [])]) []).
Definition md_t781 : ty := (Ty ["frame_system"%string; "extensions"%string; "check_nonce"%string; "CheckNonce"%string] [("T"%string,None)] (TComposite [(Field None 79%N (Some "T::Nonce"%string) [])]) []).
Definition md_t782 : ty := (Ty ["frame_system"%string; "extensions"%string; "check_weight"%string; "CheckWeight"%string] [("T"%string,None)] (TComposite []) []).
Definition md_t783 : ty := (Ty ["pallet_transaction_payment"%string; "ChargeTransactionPayment"%string] [("T"%string,None)] (TComposite [(Field None 60%N (Some "BalanceOf<T>"%string) [])]) []).
Definition md_t784 : ty := (Ty ["polkadot_runtime_common"%string; "claims"%string; "PrevalidateAttests"%string] [("T"%string,None)] (TComposite []) []).
Definition md_t785 : ty := (Ty ["polkadot_runtime"%string; "Runtime"%string] [] (TComposite []) []).
Definition md_t786 : ty := (Ty ["sp_runtime"%string; "generic"%string; "block"%string; "Block"%string] [("Header"%string,(Some 78%N)); ("Extrinsic"%string,(Some 787%N))] (TComposite [(Field (Some "header"%string) 78%N (Some "Header"%string) []); (Field (Some "extrinsics"%string) 788%N (Some "Vec<Extrinsic>"%string) [])]) []).
Definition md_t787 : ty := (Ty ["sp_runtime"%string; "generic"%string; "unchecked_extrinsic"%string; "UncheckedExtrinsic"%string] [("Address"%string,(Some 88%N)); ("Call"%string,(Some 68%N)); ("Signature"%string,(Some 347%N)); ("Extra"%string,(Some 774%N))] (TComposite [(Field None 13%N None [])]) []).
Definition md_t788 : ty := (Ty [] [] (TSequence 787%N) []).
Definition md_t789 : ty := (Ty ["sp_core"%string; "OpaqueMetadata"%string] [] (TComposite [(Field None 13%N (Some "Vec<u8>"%string) [])]) []).
Definition md_t790 : ty := (Ty ["Option"%string] [("T"%string,(Some 789%N))] (TVariant [(Variant "None"%string [] 0%N []); (Variant "Some"%string [(Field None 789%N None [])] 1%N [])]) []).
Definition md_t791 : ty := (Ty ["Result"%string] [("T"%string,(Some 33%N)); ("E"%string,(Some 792%N))] (TVariant [(Variant "Ok"%string [(Field None 33%N None [])] 0%N []); (Variant "Err"%string [(Field None 792%N None [])] 1%N [])]) []).
Definition md_t792 : ty := (Ty ["sp_runtime"%string; "transaction_validity"%string; "TransactionValidityError"%string] [] (TVariant [(Variant "Invalid"%string [(Field None 793%N (Some "InvalidTransaction"%string) [])] 0%N []); (Variant "Unknown"%string [(Field None 794%N (Some "UnknownTransaction"%string) [])] 1%N [])]) []).
Definition md_t793 : ty := (Ty ["sp_runtime"%string; "transaction_validity"%string; "InvalidTransaction"%string] [] (TVariant [(Variant "Call"%string [] 0%N []); (Variant "Payment"%string [] 1%N []); (Variant "Future"%string [] 2%N []); (Variant "Stale"%string [] 3%N []); (Variant "BadProof"%string [] 4%N []); (Variant "AncientBirthBlock"%string [] 5%N []); (Variant "ExhaustsResources"%string [] 6%N []); (Variant "Custom"%string [(Field None 2%N (Some "u8"%string) [])] 7%N []); (Variant "BadMandatory"%string [] 8%N []); (Variant "MandatoryValidation"%string [] 9%N []); (Variant "BadSigner"%string [] 10%N [])]) []).
Definition md_t794 : ty := (Ty ["sp_runtime"%string; "transaction_validity"%string; "UnknownTransaction"%string] [] (TVariant [(Variant "CannotLookup"%string [] 0%N []); (Variant "NoUnsignedValidator"%string [] 1%N []); (Variant "Custom"%string [(Field None 2%N (Some "u8"%string) [])] 2%N [])]) []).
Definition md_t795 : ty := (Ty ["sp_inherents"%string; "InherentData"%string] [] (TComposite [(Field (Some "data"%string) 796%N (Some "BTreeMap<InherentIdentifier, Vec<u8>>"%string) [])]) []).
Definition md_t796 : ty := (Ty ["BTreeMap"%string] [("K"%string,(Some 172%N)); ("V"%string,(Some 13%N))] (TComposite [(Field None 797%N None [])]) []).
Definition md_t797 : ty := (Ty [] [] (TSequence 798%N) []).
Definition md_t798 : ty := (Ty [] [] (TTuple [172%N; 13%N]) []).
Definition md_t799 : ty := (Ty ["sp_inherents"%string; "CheckInherentsResult"%string] [] (TComposite [(Field (Some "okay"%string) 44%N (Some "bool"%string) []); (Field (Some "fatal_error"%string) 44%N (Some "bool"%string) []); (Field (Some "errors"%string) 795%N (Some "InherentData"%string) [])]) []).
Definition md_t800 : ty := (Ty ["sp_runtime"%string; "transaction_validity"%string; "TransactionSource"%string] [] (TVariant [(Variant "InBlock"%string [] 0%N []); (Variant "Local"%string [] 1%N []); (Variant "External"%string [] 2%N [])]) []).
Definition md_t801 : ty := (Ty ["Result"%string] [("T"%string,(Some 802%N)); ("E"%string,(Some 792%N))] (TVariant [(Variant "Ok"%string [(Field None 802%N None [])] 0%N []); (Variant "Err"%string [(Field None 792%N None [])] 1%N [])]) []).
Definition md_t802 : ty := (Ty ["sp_runtime"%string; "transaction_validity"%string; "ValidTransaction"%string] [] (TComposite [(Field (Some "priority"%string) 11%N (Some "TransactionPriority"%string) []); (Field (Some "requires"%string) 72%N (Some "Vec<TransactionTag>"%string) []); (Field (Some "provides"%string) 72%N (Some "Vec<TransactionTag>"%string) []); (Field (Some "longevity"%string) 11%N (Some "TransactionLongevity"%string) []); (Field (Some "propagate"%string) 44%N (Some "bool"%string) [])]) []).
Definition md_t803 : ty := (Ty [] [] (TTuple [681%N; 804%N]) []).
Definition md_t804 : ty := (Ty ["polkadot_primitives"%string; "v5"%string; "GroupRotationInfo"%string] [("N"%string,(Some 4%N))] (TComposite [(Field (Some "session_start_block"%string) 4%N (Some "N"%string) []); (Field (Some "group_rotation_frequency"%string) 4%N (Some "N"%string) []); (Field (Some "now"%string) 4%N (Some "N"%string) [])]) []).
Definition md_t805 : ty := (Ty [] [] (TSequence 806%N) []).
Definition md_t806 : ty := (Ty ["polkadot_primitives"%string; "v5"%string; "CoreState"%string] [("H"%string,(Some 12%N)); ("N"%string,(Some 4%N))] (TVariant [(Variant "Occupied"%string [(Field None 807%N (Some "OccupiedCore<H, N>"%string) [])] 0%N []); (Variant "Scheduled"%string [(Field None 809%N (Some "ScheduledCore"%string) [])] 1%N []); (Variant "Free"%string [] 2%N [])]) []).
Definition md_t807 : ty := (Ty ["polkadot_primitives"%string; "v5"%string; "OccupiedCore"%string] [("H"%string,(Some 12%N)); ("N"%string,(Some 4%N))] (TComposite [(Field (Some "next_up_on_available"%string) 808%N (Some "Option<ScheduledCore>"%string) []); (Field (Some "occupied_since"%string) 4%N (Some "N"%string) []); (Field (Some "time_out_at"%string) 4%N (Some "N"%string) []); (Field (Some "next_up_on_time_out"%string) 808%N (Some "Option<ScheduledCore>"%string) []); (Field (Some "availability"%string) 298%N (Some "BitVec<u8, bitvec::order::Lsb0>"%string) []); (Field (Some "group_responsible"%string) 440%N (Some "GroupIndex"%string) []); (Field (Some "candidate_hash"%string) 321%N (Some "CandidateHash"%string) []); (Field (Some "candidate_descriptor"%string) 305%N (Some "CandidateDescriptor<H>"%string) [])]) []).
Definition md_t808 : ty := (Ty ["Option"%string] [("T"%string,(Some 809%N))] (TVariant [(Variant "None"%string [] 0%N []); (Variant "Some"%string [(Field None 809%N None [])] 1%N [])]) []).
Definition md_t809 : ty := (Ty ["polkadot_primitives"%string; "v5"%string; "ScheduledCore"%string] [] (TComposite [(Field (Some "para_id"%string) 134%N (Some "Id"%string) []); (Field (Some "collator"%string) 810%N (Some "Option<CollatorId>"%string) [])]) []).
Definition md_t810 : ty := (Ty ["Option"%string] [("T"%string,(Some 306%N))] (TVariant [(Variant "None"%string [] 0%N []); (Variant "Some"%string [(Field None 306%N None [])] 1%N [])]) []).
Definition md_t811 : ty := (Ty ["polkadot_primitives"%string; "v5"%string; "OccupiedCoreAssumption"%string] [] (TVariant [(Variant "Included"%string [] 0%N []); (Variant "TimedOut"%string [] 1%N []); (Variant "Free"%string [] 2%N [])]) []).
Definition md_t812 : ty := (Ty ["Option"%string] [("T"%string,(Some 813%N))] (TVariant [(Variant "None"%string [] 0%N []); (Variant "Some"%string [(Field None 813%N None [])] 1%N [])]) []).
Definition md_t813 : ty := (Ty ["polkadot_primitives"%string; "v5"%string; "PersistedValidationData"%string] [("H"%string,(Some 12%N)); ("N"%string,(Some 4%N))] (TComposite [(Field (Some "parent_head"%string) 316%N (Some "HeadData"%string) []); (Field (Some "relay_parent_number"%string) 4%N (Some "N"%string) []); (Field (Some "relay_parent_storage_root"%string) 12%N (Some "H"%string) []); (Field (Some "max_pov_size"%string) 4%N (Some "u32"%string) [])]) []).
Definition md_t814 : ty := (Ty ["Option"%string] [("T"%string,(Some 815%N))] (TVariant [(Variant "None"%string [] 0%N []); (Variant "Some"%string [(Field None 815%N None [])] 1%N [])]) []).
Definition md_t815 : ty := (Ty [] [] (TTuple [813%N; 308%N]) []).
Definition md_t816 : ty := (Ty ["Option"%string] [("T"%string,(Some 304%N))] (TVariant [(Variant "None"%string [] 0%N []); (Variant "Some"%string [(Field None 304%N None [])] 1%N [])]) []).
Definition md_t817 : ty := (Ty [] [] (TSequence 818%N) []).
Definition md_t818 : ty := (Ty ["polkadot_primitives"%string; "v5"%string; "CandidateEvent"%string] [("H"%string,(Some 12%N))] (TVariant [(Variant "CandidateBacked"%string [(Field None 438%N (Some "CandidateReceipt<H>"%string) []); (Field None 316%N (Some "HeadData"%string) []); (Field None 439%N (Some "CoreIndex"%string) []); (Field None 440%N (Some "GroupIndex"%string) [])] 0%N []); (Variant "CandidateIncluded"%string [(Field None 438%N (Some "CandidateReceipt<H>"%string) []); (Field None 316%N (Some "HeadData"%string) []); (Field None 439%N (Some "CoreIndex"%string) []); (Field None 440%N (Some "GroupIndex"%string) [])] 1%N []); (Variant "CandidateTimedOut"%string [(Field None 438%N (Some "CandidateReceipt<H>"%string) []); (Field None 316%N (Some "HeadData"%string) []); (Field None 439%N (Some "CoreIndex"%string) [])] 2%N [])]) []).
Definition md_t819 : ty := (Ty ["BTreeMap"%string] [("K"%string,(Some 134%N)); ("V"%string,(Some 713%N))] (TComposite [(Field None 820%N None [])]) []).
Definition md_t820 : ty := (Ty [] [] (TSequence 821%N) []).
Definition md_t821 : ty := (Ty [] [] (TTuple [134%N; 713%N]) []).
Definition md_t822 : ty := (Ty ["Option"%string] [("T"%string,(Some 675%N))] (TVariant [(Variant "None"%string [] 0%N []); (Variant "Some"%string [(Field None 675%N None [])] 1%N [])]) []).
Definition md_t823 : ty := (Ty ["Option"%string] [("T"%string,(Some 719%N))] (TVariant [(Variant "None"%string [] 0%N []); (Variant "Some"%string [(Field None 719%N None [])] 1%N [])]) []).
Definition md_t824 : ty := (Ty ["Option"%string] [("T"%string,(Some 308%N))] (TVariant [(Variant "None"%string [] 0%N []); (Variant "Some"%string [(Field None 308%N None [])] 1%N [])]) []).
Definition md_t825 : ty := (Ty [] [] (TSequence 826%N) []).
Definition md_t826 : ty := (Ty [] [] (TTuple [4%N; 321%N; 724%N]) []).
Definition md_t827 : ty := (Ty ["Option"%string] [("T"%string,(Some 286%N))] (TVariant [(Variant "None"%string [] 0%N []); (Variant "Some"%string [(Field None 286%N None [])] 1%N [])]) []).
Definition md_t828 : ty := (Ty [] [] (TSequence 829%N) []).
Definition md_t829 : ty := (Ty [] [] (TTuple [4%N; 321%N; 727%N]) []).
Definition md_t830 : ty := (Ty ["Option"%string] [("T"%string,(Some 831%N))] (TVariant [(Variant "None"%string [] 0%N []); (Variant "Some"%string [(Field None 831%N None [])] 1%N [])]) []).
Definition md_t831 : ty := (Ty ["polkadot_primitives"%string; "v5"%string; "slashing"%string; "OpaqueKeyOwnershipProof"%string] [] (TComposite [(Field None 13%N (Some "Vec<u8>"%string) [])]) []).
Definition md_t832 : ty := (Ty ["Option"%string] [("T"%string,(Some 34%N))] (TVariant [(Variant "None"%string [] 0%N []); (Variant "Some"%string [(Field None 34%N None [])] 1%N [])]) []).
Definition md_t833 : ty := (Ty ["Option"%string] [("T"%string,(Some 834%N))] (TVariant [(Variant "None"%string [] 0%N []); (Variant "Some"%string [(Field None 834%N None [])] 1%N [])]) []).
Definition md_t834 : ty := (Ty ["polkadot_primitives"%string; "vstaging"%string; "BackingState"%string] [("H"%string,(Some 12%N)); ("N"%string,(Some 4%N))] (TComposite [(Field (Some "constraints"%string) 835%N (Some "Constraints<N>"%string) []); (Field (Some "pending_availability"%string) 843%N (Some "Vec<CandidatePendingAvailability<H, N>>"%string) [])]) []).
Definition md_t835 : ty := (Ty ["polkadot_primitives"%string; "vstaging"%string; "Constraints"%string] [("N"%string,(Some 4%N))] (TComposite [(Field (Some "min_relay_parent_number"%string) 4%N (Some "N"%string) []); (Field (Some "max_pov_size"%string) 4%N (Some "u32"%string) []); (Field (Some "max_code_size"%string) 4%N (Some "u32"%string) []); (Field (Some "ump_remaining"%string) 4%N (Some "u32"%string) []); (Field (Some "ump_remaining_bytes"%string) 4%N (Some "u32"%string) []); (Field (Some "max_ump_num_per_candidate"%string) 4%N (Some "u32"%string) []); (Field (Some "dmp_remaining_messages"%string) 97%N (Some "Vec<N>"%string) []); (Field (Some "hrmp_inbound"%string) 836%N (Some "InboundHrmpLimitations<N>"%string) []); (Field (Some "hrmp_channels_out"%string) 837%N (Some "Vec<(ParaId, OutboundHrmpChannelLimitations)>"%string) []); (Field (Some "max_hrmp_num_per_candidate"%string) 4%N (Some "u32"%string) []); (Field (Some "required_parent"%string) 316%N (Some "HeadData"%string) []); (Field (Some "validation_code_hash"%string) 308%N (Some "ValidationCodeHash"%string) []); (Field (Some "upgrade_restriction"%string) 840%N (Some "Option<UpgradeRestriction>"%string) []); (Field (Some "future_validation_code"%string) 841%N (Some "Option<(N, ValidationCodeHash)>"%string) [])]) []).
Definition md_t836 : ty := (Ty ["polkadot_primitives"%string; "vstaging"%string; "InboundHrmpLimitations"%string] [("N"%string,(Some 4%N))] (TComposite [(Field (Some "valid_watermarks"%string) 97%N (Some "Vec<N>"%string) [])]) []).
Definition md_t837 : ty := (Ty [] [] (TSequence 838%N) []).
Definition md_t838 : ty := (Ty [] [] (TTuple [134%N; 839%N]) []).
Definition md_t839 : ty := (Ty ["polkadot_primitives"%string; "vstaging"%string; "OutboundHrmpChannelLimitations"%string] [] (TComposite [(Field (Some "bytes_remaining"%string) 4%N (Some "u32"%string) []); (Field (Some "messages_remaining"%string) 4%N (Some "u32"%string) [])]) []).
Definition md_t840 : ty := (Ty ["Option"%string] [("T"%string,(Some 703%N))] (TVariant [(Variant "None"%string [] 0%N []); (Variant "Some"%string [(Field None 703%N None [])] 1%N [])]) []).
Definition md_t841 : ty := (Ty ["Option"%string] [("T"%string,(Some 842%N))] (TVariant [(Variant "None"%string [] 0%N []); (Variant "Some"%string [(Field None 842%N None [])] 1%N [])]) []).
Definition md_t842 : ty := (Ty [] [] (TTuple [4%N; 308%N]) []).
Definition md_t843 : ty := (Ty [] [] (TSequence 844%N) []).
Definition md_t844 : ty := (Ty ["polkadot_primitives"%string; "vstaging"%string; "CandidatePendingAvailability"%string] [("H"%string,(Some 12%N)); ("N"%string,(Some 4%N))] (TComposite [(Field (Some "candidate_hash"%string) 321%N (Some "CandidateHash"%string) []); (Field (Some "descriptor"%string) 305%N (Some "CandidateDescriptor<H>"%string) []); (Field (Some "commitments"%string) 309%N (Some "CandidateCommitments"%string) []); (Field (Some "relay_parent_number"%string) 4%N (Some "N"%string) []); (Field (Some "max_pov_size"%string) 4%N (Some "u32"%string) [])]) []).
Definition md_t845 : ty := (Ty ["Option"%string] [("T"%string,(Some 846%N))] (TVariant [(Variant "None"%string [] 0%N []); (Variant "Some"%string [(Field None 846%N None [])] 1%N [])]) []).
Definition md_t846 : ty := (Ty ["sp_consensus_beefy"%string; "ValidatorSet"%string] [("AuthorityId"%string,(Some 847%N))] (TComposite [(Field (Some "validators"%string) 848%N (Some "Vec<AuthorityId>"%string) []); (Field (Some "id"%string) 11%N (Some "ValidatorSetId"%string) [])]) []).
Definition md_t847 : ty := (Ty ["sp_consensus_beefy"%string; "ecdsa_crypto"%string; "Public"%string] [] (TComposite [(Field None 344%N (Some "ecdsa::Public"%string) [])]) []).
Definition md_t848 : ty := (Ty [] [] (TSequence 847%N) []).
Definition md_t849 : ty := (Ty ["sp_consensus_beefy"%string; "EquivocationProof"%string] [("Number"%string,(Some 4%N)); ("Id"%string,(Some 847%N)); ("Signature"%string,(Some 850%N))] (TComposite [(Field (Some "first"%string) 851%N (Some "VoteMessage<Number, Id, Signature>"%string) []); (Field (Some "second"%string) 851%N (Some "VoteMessage<Number, Id, Signature>"%string) [])]) []).
Definition md_t850 : ty := (Ty ["sp_consensus_beefy"%string; "ecdsa_crypto"%string; "Signature"%string] [] (TComposite [(Field None 348%N (Some "ecdsa::Signature"%string) [])]) []).
Definition md_t851 : ty := (Ty ["sp_consensus_beefy"%string; "VoteMessage"%string] [("Number"%string,(Some 4%N)); ("Id"%string,(Some 847%N)); ("Signature"%string,(Some 850%N))] (TComposite [(Field (Some "commitment"%string) 852%N (Some "Commitment<Number>"%string) []); (Field (Some "id"%string) 847%N (Some "Id"%string) []); (Field (Some "signature"%string) 850%N (Some "Signature"%string) [])]) []).
Definition md_t852 : ty := (Ty ["sp_consensus_beefy"%string; "commitment"%string; "Commitment"%string] [("TBlockNumber"%string,(Some 4%N))] (TComposite [(Field (Some "payload"%string) 853%N (Some "Payload"%string) []); (Field (Some "block_number"%string) 4%N (Some "TBlockNumber"%string) []); (Field (Some "validator_set_id"%string) 11%N (Some "ValidatorSetId"%string) [])]) []).
Definition md_t853 : ty := (Ty ["sp_consensus_beefy"%string; "payload"%string; "Payload"%string] [] (TComposite [(Field None 854%N (Some "Vec<(BeefyPayloadId, Vec<u8>)>"%string) [])]) []).
Definition md_t854 : ty := (Ty [] [] (TSequence 855%N) []).
Definition md_t855 : ty := (Ty [] [] (TTuple [167%N; 13%N]) []).
Definition md_t856 : ty := (Ty ["sp_consensus_beefy"%string; "OpaqueKeyOwnershipProof"%string] [] (TComposite [(Field None 13%N (Some "Vec<u8>"%string) [])]) []).
Definition md_t857 : ty := (Ty ["Option"%string] [("T"%string,(Some 856%N))] (TVariant [(Variant "None"%string [] 0%N []); (Variant "Some"%string [(Field None 856%N None [])] 1%N [])]) []).
Definition md_t858 : ty := (Ty ["Result"%string] [("T"%string,(Some 12%N)); ("E"%string,(Some 859%N))] (TVariant [(Variant "Ok"%string [(Field None 12%N None [])] 0%N []); (Variant "Err"%string [(Field None 859%N None [])] 1%N [])]) []).
Definition md_t859 : ty := (Ty ["sp_mmr_primitives"%string; "Error"%string] [] (TVariant [(Variant "InvalidNumericOp"%string [] 0%N []); (Variant "Push"%string [] 1%N []); (Variant "GetRoot"%string [] 2%N []); (Variant "Commit"%string [] 3%N []); (Variant "GenerateProof"%string [] 4%N []); (Variant "Verify"%string [] 5%N []); (Variant "LeafNotFound"%string [] 6%N []); (Variant "PalletNotIncluded"%string [] 7%N []); (Variant "InvalidLeafIndex"%string [] 8%N []); (Variant "InvalidBestKnownBlock"%string [] 9%N [])]) []).
Definition md_t860 : ty := (Ty ["Result"%string] [("T"%string,(Some 11%N)); ("E"%string,(Some 859%N))] (TVariant [(Variant "Ok"%string [(Field None 11%N None [])] 0%N []); (Variant "Err"%string [(Field None 859%N None [])] 1%N [])]) []).
Definition md_t861 : ty := (Ty ["Result"%string] [("T"%string,(Some 862%N)); ("E"%string,(Some 859%N))] (TVariant [(Variant "Ok"%string [(Field None 862%N None [])] 0%N []); (Variant "Err"%string [(Field None 859%N None [])] 1%N [])]) []).
Definition md_t862 : ty := (Ty [] [] (TTuple [863%N; 865%N]) []).
Definition md_t863 : ty := (Ty [] [] (TSequence 864%N) []).
Definition md_t864 : ty := (Ty ["sp_mmr_primitives"%string; "EncodableOpaqueLeaf"%string] [] (TComposite [(Field None 13%N (Some "Vec<u8>"%string) [])]) []).
Definition md_t865 : ty := (Ty ["sp_mmr_primitives"%string; "Proof"%string] [("Hash"%string,(Some 12%N))] (TComposite [(Field (Some "leaf_indices"%string) 638%N (Some "Vec<LeafIndex>"%string) []); (Field (Some "leaf_count"%string) 11%N (Some "NodeIndex"%string) []); (Field (Some "items"%string) 455%N (Some "Vec<Hash>"%string) [])]) []).
Definition md_t866 : ty := (Ty ["Result"%string] [("T"%string,(Some 34%N)); ("E"%string,(Some 859%N))] (TVariant [(Variant "Ok"%string [(Field None 34%N None [])] 0%N []); (Variant "Err"%string [(Field None 859%N None [])] 1%N [])]) []).
Definition md_t867 : ty := (Ty ["sp_consensus_grandpa"%string; "OpaqueKeyOwnershipProof"%string] [] (TComposite [(Field None 13%N (Some "Vec<u8>"%string) [])]) []).
Definition md_t868 : ty := (Ty ["Option"%string] [("T"%string,(Some 867%N))] (TVariant [(Variant "None"%string [] 0%N []); (Variant "Some"%string [(Field None 867%N None [])] 1%N [])]) []).
Definition md_t869 : ty := (Ty ["sp_consensus_babe"%string; "BabeConfiguration"%string] [] (TComposite [(Field (Some "slot_duration"%string) 11%N (Some "u64"%string) []); (Field (Some "epoch_length"%string) 11%N (Some "u64"%string) []); (Field (Some "c"%string) 84%N (Some "(u64, u64)"%string) []); (Field (Some "authorities"%string) 482%N (Some "Vec<(AuthorityId, BabeAuthorityWeight)>"%string) []); (Field (Some "randomness"%string) 1%N (Some "Randomness"%string) []); (Field (Some "allowed_slots"%string) 85%N (Some "AllowedSlots"%string) [])]) []).
Definition md_t870 : ty := (Ty ["sp_consensus_babe"%string; "Epoch"%string] [] (TComposite [(Field (Some "epoch_index"%string) 11%N (Some "u64"%string) []); (Field (Some "start_slot"%string) 81%N (Some "Slot"%string) []); (Field (Some "duration"%string) 11%N (Some "u64"%string) []); (Field (Some "authorities"%string) 482%N (Some "Vec<(AuthorityId, BabeAuthorityWeight)>"%string) []); (Field (Some "randomness"%string) 1%N (Some "Randomness"%string) []); (Field (Some "config"%string) 491%N (Some "BabeEpochConfiguration"%string) [])]) []).
Definition md_t871 : ty := (Ty ["Option"%string] [("T"%string,(Some 872%N))] (TVariant [(Variant "None"%string [] 0%N []); (Variant "Some"%string [(Field None 872%N None [])] 1%N [])]) []).
Definition md_t872 : ty := (Ty ["sp_consensus_babe"%string; "OpaqueKeyOwnershipProof"%string] [] (TComposite [(Field None 13%N (Some "Vec<u8>"%string) [])]) []).
Definition md_t873 : ty := (Ty ["Option"%string] [("T"%string,(Some 874%N))] (TVariant [(Variant "None"%string [] 0%N []); (Variant "Some"%string [(Field None 874%N None [])] 1%N [])]) []).
Definition md_t874 : ty := (Ty [] [] (TSequence 875%N) []).
Definition md_t875 : ty := (Ty [] [] (TTuple [13%N; 542%N]) []).
Definition md_t876 : ty := (Ty ["pallet_transaction_payment"%string; "types"%string; "RuntimeDispatchInfo"%string] [("Balance"%string,(Some 6%N)); ("Weight"%string,(Some 9%N))] (TComposite [(Field (Some "weight"%string) 9%N (Some "Weight"%string) []); (Field (Some "class"%string) 23%N (Some "DispatchClass"%string) []); (Field (Some "partial_fee"%string) 6%N (Some "Balance"%string) [])]) []).
Definition md_t877 : ty := (Ty ["pallet_transaction_payment"%string; "types"%string; "FeeDetails"%string] [("Balance"%string,(Some 6%N))] (TComposite [(Field (Some "inclusion_fee"%string) 878%N (Some "Option<InclusionFee<Balance>>"%string) []); (Field (Some "tip"%string) 6%N (Some "Balance"%string) [])]) []).
Definition md_t878 : ty := (Ty ["Option"%string] [("T"%string,(Some 879%N))] (TVariant [(Variant "None"%string [] 0%N []); (Variant "Some"%string [(Field None 879%N None [])] 1%N [])]) []).
Definition md_t879 : ty := (Ty ["pallet_transaction_payment"%string; "types"%string; "InclusionFee"%string] [("Balance"%string,(Some 6%N))] (TComposite [(Field (Some "base_fee"%string) 6%N (Some "Balance"%string) []); (Field (Some "len_fee"%string) 6%N (Some "Balance"%string) []); (Field (Some "adjusted_weight_fee"%string) 6%N (Some "Balance"%string) [])]) []).
Definition md_t880 : ty := (Ty ["polkadot_runtime"%string; "RuntimeError"%string] [] (TVariant [(Variant "System"%string [(Field None 469%N (Some "frame_system::Error<Runtime>"%string) [])] 0%N []); (Variant "Scheduler"%string [(Field None 474%N (Some "pallet_scheduler::Error<Runtime>"%string) [])] 1%N []); (Variant "Preimage"%string [(Field None 479%N (Some "pallet_preimage::Error<Runtime>"%string) [])] 10%N []); (Variant "Babe"%string [(Field None 495%N (Some "pallet_babe::Error<Runtime>"%string) [])] 2%N []); (Variant "Indices"%string [(Field None 497%N (Some "pallet_indices::Error<Runtime>"%string) [])] 4%N []); (Variant "Balances"%string [(Field None 512%N (Some "pallet_balances::Error<Runtime>"%string) [])] 5%N []); (Variant "Staking"%string [(Field None 536%N (Some "pallet_staking::Error<Runtime>"%string) [])] 7%N []); (Variant "Session"%string [(Field None 543%N (Some "pallet_session::Error<Runtime>"%string) [])] 9%N []); (Variant "Grandpa"%string [(Field None 547%N (Some "pallet_grandpa::Error<Runtime>"%string) [])] 11%N []); (Variant "ImOnline"%string [(Field None 550%N (Some "pallet_im_online::Error<Runtime>"%string) [])] 12%N []); (Variant "Treasury"%string [(Field None 556%N (Some "pallet_treasury::Error<Runtime>"%string) [])] 19%N []); (Variant "ConvictionVoting"%string [(Field None 569%N (Some "pallet_conviction_voting::Error<Runtime>"%string) [])] 20%N []); (Variant "Referenda"%string [(Field None 587%N (Some "pallet_referenda::Error<Runtime>"%string) [])] 21%N []); (Variant "Whitelist"%string [(Field None 588%N (Some "pallet_whitelist::Error<Runtime>"%string) [])] 23%N []); (Variant "Claims"%string [(Field None 589%N (Some "claims::Error<Runtime>"%string) [])] 24%N []); (Variant "Vesting"%string [(Field None 593%N (Some "pallet_vesting::Error<Runtime>"%string) [])] 25%N []); (Variant "Utility"%string [(Field None 594%N (Some "pallet_utility::Error<Runtime>"%string) [])] 26%N []); (Variant "Identity"%string [(Field None 605%N (Some "pallet_identity::Error<Runtime>"%string) [])] 28%N []); (Variant "Proxy"%string [(Field None 614%N (Some "pallet_proxy::Error<Runtime>"%string) [])] 29%N []); (Variant "Multisig"%string [(Field None 618%N (Some "pallet_multisig::Error<Runtime>"%string) [])] 30%N []); (Variant "Bounties"%string [(Field None 622%N (Some "pallet_bounties::Error<Runtime>"%string) [])] 34%N []); (Variant "ChildBounties"%string [(Field None 625%N (Some "pallet_child_bounties::Error<Runtime>"%string) [])] 38%N []); (Variant "ElectionProviderMultiPhase"%string [(Field None 635%N (Some "pallet_election_provider_multi_phase::Error<Runtime>"%string) [])] 36%N []); (Variant "VoterList"%string [(Field None 639%N (Some "pallet_bags_list::Error<Runtime, pallet_bags_list::Instance1>"%string) [])] 37%N []); (Variant "NominationPools"%string [(Field None 657%N (Some "pallet_nomination_pools::Error<Runtime>"%string) [])] 39%N []); (Variant "FastUnstake"%string [(Field None 662%N (Some "pallet_fast_unstake::Error<Runtime>"%string) [])] 40%N []); (Variant "Configuration"%string [(Field None 666%N (Some "parachains_configuration::Error<Runtime>"%string) [])] 51%N []); (Variant "ParaInclusion"%string [(Field None 674%N (Some "parachains_inclusion::Error<Runtime>"%string) [])] 53%N []); (Variant "ParaInherent"%string [(Field None 680%N (Some "parachains_paras_inherent::Error<Runtime>"%string) [])] 54%N []); (Variant "Paras"%string [(Field None 705%N (Some "parachains_paras::Error<Runtime>"%string) [])] 56%N []); (Variant "Hrmp"%string [(Field None 717%N (Some "parachains_hrmp::Error<Runtime>"%string) [])] 60%N []); (Variant "ParasDisputes"%string [(Field None 726%N (Some "parachains_disputes::Error<Runtime>"%string) [])] 62%N []); (Variant "ParasSlashing"%string [(Field None 731%N (Some "parachains_slashing::Error<Runtime>"%string) [])] 63%N []); (Variant "Registrar"%string [(Field None 734%N (Some "paras_registrar::Error<Runtime>"%string) [])] 70%N []); (Variant "Slots"%string [(Field None 736%N (Some "slots::Error<Runtime>"%string) [])] 71%N []); (Variant "Auctions"%string [(Field None 741%N (Some "auctions::Error<Runtime>"%string) [])] 72%N []); (Variant "Crowdloan"%string [(Field None 744%N (Some "crowdloan::Error<Runtime>"%string) [])] 73%N []); (Variant "XcmPallet"%string [(Field None 766%N (Some "pallet_xcm::Error<Runtime>"%string) [])] 99%N []); (Variant "MessageQueue"%string [(Field None 773%N (Some "pallet_message_queue::Error<Runtime>"%string) [])] 100%N [])]) []).
Definition md_types : list ty := [md_t0; md_t1; md_t2; md_t3; md_t4; md_t5; md_t6; md_t7; md_t8; md_t9; md_t10; md_t11; md_t12; md_t13; md_t14; md_t15; md_t16; md_t17; md_t18; md_t19; md_t20; md_t21; md_t22; md_t23; md_t24; md_t25; md_t26; md_t27; md_t28; md_t29; md_t30; md_t31; md_t32; md_t33; md_t34; md_t35; md_t36; md_t37; md_t38; md_t39; md_t40; md_t41; md_t42; md_t43; md_t44; md_t45; md_t46; md_t47; md_t48; md_t49; md_t50; md_t51; md_t52; md_t53; md_t54; md_t55; md_t56; md_t57; md_t58; md_t59; md_t60; md_t61; md_t62; md_t63; md_t64; md_t65; md_t66; md_t67; md_t68; md_t69; md_t70; md_t71; md_t72; md_t73; md_t74; md_t75; md_t76; md_t77; md_t78; md_t79; md_t80; md_t81; md_t82; md_t83; md_t84; md_t85; md_t86; md_t87; md_t88; md_t89; md_t90; md_t91; md_t92; md_t93; md_t94; md_t95; md_t96; md_t97; md_t98; md_t99; md_t100; md_t101; md_t102; md_t103; md_t104; md_t105; md_t106; md_t107; md_t108; md_t109; md_t110; md_t111; md_t112; md_t113; md_t114; md_t115; md_t116; md_t117; md_t118; md_t119; md_t120; md_t121; md_t122; md_t123; md_t124; md_t125; md_t126; md_t127; md_t128; md_t129; md_t130; md_t131; md_t132; md_t133; md_t134; md_t135; md_t136; md_t137; md_t138; md_t139; md_t140; md_t141; md_t142; md_t143; md_t144; md_t145; md_t146; md_t147; md_t148; md_t149; md_t150; md_t151; md_t152; md_t153; md_t154; md_t155; md_t156; md_t157; md_t158; md_t159; md_t160; md_t161; md_t162; md_t163; md_t164; md_t165; md_t166; md_t167; md_t168; md_t169; md_t170; md_t171; md_t172; md_t173; md_t174; md_t175; md_t176; md_t177; md_t178; md_t179; md_t180; md_t181; md_t182; md_t183; md_t184; md_t185; md_t186; md_t187; md_t188; md_t189; md_t190; md_t191; md_t192; md_t193; md_t194; md_t195; md_t196; md_t197; md_t198; md_t199; md_t200; md_t201; md_t202; md_t203; md_t204; md_t205; md_t206; md_t207; md_t208; md_t209; md_t210; md_t211; md_t212; md_t213; md_t214; md_t215; md_t216; md_t217; md_t218; md_t219; md_t220; md_t221; md_t222; md_t223; md_t224; md_t225; md_t226; md_t227; md_t228; md_t229; md_t230; md_t231; md_t232; md_t233; md_t234; md_t235; md_t236; md_t237; md_t238; md_t239; md_t240; md_t241; md_t242; md_t243; md_t244; md_t245; md_t246; md_t247; md_t248; md_t249; md_t250; md_t251; md_t252; md_t253; md_t254; md_t255; md_t256; md_t257; md_t258; md_t259; md_t260; md_t261; md_t262; md_t263; md_t264; md_t265; md_t266; md_t267; md_t268; md_t269; md_t270; md_t271; md_t272; md_t273; md_t274; md_t275; md_t276; md_t277; md_t278; md_t279; md_t280; md_t281; md_t282; md_t283; md_t284; md_t285; md_t286; md_t287; md_t288; md_t289; md_t290; md_t291; md_t292; md_t293; md_t294; md_t295; md_t296; md_t297; md_t298; md_t299; md_t300; md_t301; md_t302; md_t303; md_t304; md_t305; md_t306; md_t307; md_t308; md_t309; md_t310; md_t311; md_t312; md_t313; md_t314; md_t315; md_t316; md_t317; md_t318; md_t319; md_t320; md_t321; md_t322; md_t323; md_t324; md_t325; md_t326; md_t327; md_t328; md_t329; md_t330; md_t331; md_t332; md_t333; md_t334; md_t335; md_t336; md_t337; md_t338; md_t339; md_t340; md_t341; md_t342; md_t343; md_t344; md_t345; md_t346; md_t347; md_t348; md_t349; md_t350; md_t351; md_t352; md_t353; md_t354; md_t355; md_t356; md_t357; md_t358; md_t359; md_t360; md_t361; md_t362; md_t363; md_t364; md_t365; md_t366; md_t367; md_t368; md_t369; md_t370; md_t371; md_t372; md_t373; md_t374; md_t375; md_t376; md_t377; md_t378; md_t379; md_t380; md_t381; md_t382; md_t383; md_t384; md_t385; md_t386; md_t387; md_t388; md_t389; md_t390; md_t391; md_t392; md_t393; md_t394; md_t395; md_t396; md_t397; md_t398; md_t399; md_t400; md_t401; md_t402; md_t403; md_t404; md_t405; md_t406; md_t407; md_t408; md_t409; md_t410; md_t411; md_t412; md_t413; md_t414; md_t415; md_t416; md_t417; md_t418; md_t419; md_t420; md_t421; md_t422; md_t423; md_t424; md_t425; md_t426; md_t427; md_t428; md_t429; md_t430; md_t431; md_t432; md_t433; md_t434; md_t435; md_t436; md_t437; md_t438; md_t439; md_t440; md_t441; md_t442; md_t443; md_t444; md_t445; md_t446; md_t447; md_t448; md_t449; md_t450; md_t451; md_t452; md_t453; md_t454; md_t455; md_t456; md_t457; md_t458; md_t459; md_t460; md_t461; md_t462; md_t463; md_t464; md_t465; md_t466; md_t467; md_t468; md_t469; md_t470; md_t471; md_t472; md_t473; md_t474; md_t475; md_t476; md_t477; md_t478; md_t479; md_t480; md_t481; md_t482; md_t483; md_t484; md_t485; md_t486; md_t487; md_t488; md_t489; md_t490; md_t491; md_t492; md_t493; md_t494; md_t495; md_t496; md_t497; md_t498; md_t499; md_t500; md_t501; md_t502; md_t503; md_t504; md_t505; md_t506; md_t507; md_t508; md_t509; md_t510; md_t511; md_t512; md_t513; md_t514; md_t515; md_t516; md_t517; md_t518; md_t519; md_t520; md_t521; md_t522; md_t523; md_t524; md_t525; md_t526; md_t527; md_t528; md_t529; md_t530; md_t531; md_t532; md_t533; md_t534; md_t535; md_t536; md_t537; md_t538; md_t539; md_t540; md_t541; md_t542; md_t543; md_t544; md_t545; md_t546; md_t547; md_t548; md_t549; md_t550; md_t551; md_t552; md_t553; md_t554; md_t555; md_t556; md_t557; md_t558; md_t559; md_t560; md_t561; md_t562; md_t563; md_t564; md_t565; md_t566; md_t567; md_t568; md_t569; md_t570; md_t571; md_t572; md_t573; md_t574; md_t575; md_t576; md_t577; md_t578; md_t579; md_t580; md_t581; md_t582; md_t583; md_t584; md_t585; md_t586; md_t587; md_t588; md_t589; md_t590; md_t591; md_t592; md_t593; md_t594; md_t595; md_t596; md_t597; md_t598; md_t599; md_t600; md_t601; md_t602; md_t603; md_t604; md_t605; md_t606; md_t607; md_t608; md_t609; md_t610; md_t611; md_t612; md_t613; md_t614; md_t615; md_t616; md_t617; md_t618; md_t619; md_t620; md_t621; md_t622; md_t623; md_t624; md_t625; md_t626; md_t627; md_t628; md_t629; md_t630; md_t631; md_t632; md_t633; md_t634; md_t635; md_t636; md_t637; md_t638; md_t639; md_t640; md_t641; md_t642; md_t643; md_t644; md_t645; md_t646; md_t647; md_t648; md_t649; md_t650; md_t651; md_t652; md_t653; md_t654; md_t655; md_t656; md_t657; md_t658; md_t659; md_t660; md_t661; md_t662; md_t663; md_t664; md_t665; md_t666; md_t667; md_t668; md_t669; md_t670; md_t671; md_t672; md_t673; md_t674; md_t675; md_t676; md_t677; md_t678; md_t679; md_t680; md_t681; md_t682; md_t683; md_t684; md_t685; md_t686; md_t687; md_t688; md_t689; md_t690; md_t691; md_t692; md_t693; md_t694; md_t695; md_t696; md_t697; md_t698; md_t699; md_t700; md_t701; md_t702; md_t703; md_t704; md_t705; md_t706; md_t707; md_t708; md_t709; md_t710; md_t711; md_t712; md_t713; md_t714; md_t715; md_t716; md_t717; md_t718; md_t719; md_t720; md_t721; md_t722; md_t723; md_t724; md_t725; md_t726; md_t727; md_t728; md_t729; md_t730; md_t731; md_t732; md_t733; md_t734; md_t735; md_t736; md_t737; md_t738; md_t739; md_t740; md_t741; md_t742; md_t743; md_t744; md_t745; md_t746; md_t747; md_t748; md_t749; md_t750; md_t751; md_t752; md_t753; md_t754; md_t755; md_t756; md_t757; md_t758; md_t759; md_t760; md_t761; md_t762; md_t763; md_t764; md_t765; md_t766; md_t767; md_t768; md_t769; md_t770; md_t771; md_t772; md_t773; md_t774; md_t775; md_t776; md_t777; md_t778; md_t779; md_t780; md_t781; md_t782; md_t783; md_t784; md_t785; md_t786; md_t787; md_t788; md_t789; md_t790; md_t791; md_t792; md_t793; md_t794; md_t795; md_t796; md_t797; md_t798; md_t799; md_t800; md_t801; md_t802; md_t803; md_t804; md_t805; md_t806; md_t807; md_t808; md_t809; md_t810; md_t811; md_t812; md_t813; md_t814; md_t815; md_t816; md_t817; md_t818; md_t819; md_t820; md_t821; md_t822; md_t823; md_t824; md_t825; md_t826; md_t827; md_t828; md_t829; md_t830; md_t831; md_t832; md_t833; md_t834; md_t835; md_t836; md_t837; md_t838; md_t839; md_t840; md_t841; md_t842; md_t843; md_t844; md_t845; md_t846; md_t847; md_t848; md_t849; md_t850; md_t851; md_t852; md_t853; md_t854; md_t855; md_t856; md_t857; md_t858; md_t859; md_t860; md_t861; md_t862; md_t863; md_t864; md_t865; md_t866; md_t867; md_t868; md_t869; md_t870; md_t871; md_t872; md_t873; md_t874; md_t875; md_t876; md_t877; md_t878; md_t879; md_t880].
Definition md := metadata_of_v15 (MetadataV15 md_types [(Pallet "System"%string [(Constant "Version"%string [32%N; 112%N; 111%N; 108%N; 107%N; 97%N; 100%N; 111%N; 116%N; 60%N; 112%N; 97%N; 114%N; 105%N; 116%N; 121%N; 45%N; 112%N; 111%N; 108%N; 107%N; 97%N; 100%N; 111%N; 116%N; 0%N; 0%N; 0%N; 0%N; 65%N; 66%N; 15%N; 0%N; 0%N; 0%N; 0%N; 0%N; 68%N; 223%N; 106%N; 203%N; 104%N; 153%N; 7%N; 96%N; 155%N; 4%N; 0%N; 0%N; 0%N; 55%N; 227%N; 151%N; 252%N; 124%N; 145%N; 245%N; 228%N; 2%N; 0%N; 0%N; 0%N; 64%N; 254%N; 58%N; 212%N; 1%N; 248%N; 149%N; 154%N; 6%N; 0%N; 0%N; 0%N; 23%N; 166%N; 188%N; 13%N; 0%N; 98%N; 174%N; 179%N; 1%N; 0%N; 0%N; 0%N; 24%N; 239%N; 88%N; 163%N; 182%N; 123%N; 167%N; 112%N; 1%N; 0%N; 0%N; 0%N; 210%N; 188%N; 152%N; 151%N; 238%N; 208%N; 143%N; 21%N; 3%N; 0%N; 0%N; 0%N; 247%N; 139%N; 39%N; 139%N; 229%N; 63%N; 69%N; 76%N; 2%N; 0%N; 0%N; 0%N; 175%N; 44%N; 2%N; 151%N; 162%N; 62%N; 109%N; 61%N; 5%N; 0%N; 0%N; 0%N; 73%N; 234%N; 175%N; 27%N; 84%N; 138%N; 12%N; 176%N; 3%N; 0%N; 0%N; 0%N; 145%N; 213%N; 223%N; 24%N; 176%N; 210%N; 207%N; 88%N; 2%N; 0%N; 0%N; 0%N; 237%N; 153%N; 197%N; 172%N; 178%N; 94%N; 237%N; 245%N; 3%N; 0%N; 0%N; 0%N; 203%N; 202%N; 37%N; 227%N; 159%N; 20%N; 35%N; 135%N; 2%N; 0%N; 0%N; 0%N; 104%N; 122%N; 212%N; 74%N; 211%N; 127%N; 3%N; 194%N; 1%N; 0%N; 0%N; 0%N; 171%N; 60%N; 5%N; 114%N; 41%N; 31%N; 235%N; 139%N; 1%N; 0%N; 0%N; 0%N; 188%N; 157%N; 137%N; 144%N; 79%N; 91%N; 146%N; 63%N; 1%N; 0%N; 0%N; 0%N; 55%N; 200%N; 187%N; 19%N; 80%N; 169%N; 162%N; 168%N; 4%N; 0%N; 0%N; 0%N; 243%N; 255%N; 20%N; 213%N; 171%N; 82%N; 112%N; 89%N; 3%N; 0%N; 0%N; 0%N; 24%N; 0%N; 0%N; 0%N; 0%N] 465%N)]); (Pallet "Scheduler"%string []); (Pallet "Preimage"%string []); (Pallet "Babe"%string []); (Pallet "Timestamp"%string []); (Pallet "Indices"%string []); (Pallet "Balances"%string []); (Pallet "TransactionPayment"%string []); (Pallet "Authorship"%string []); (Pallet "Staking"%string []); (Pallet "Offences"%string []); (Pallet "Historical"%string []); (Pallet "Session"%string []); (Pallet "Grandpa"%string []); (Pallet "ImOnline"%string []); (Pallet "AuthorityDiscovery"%string []); (Pallet "Treasury"%string []); (Pallet "ConvictionVoting"%string []); (Pallet "Referenda"%string []); (Pallet "Whitelist"%string []); (Pallet "Claims"%string []); (Pallet "Vesting"%string []); (Pallet "Utility"%string []); (Pallet "Identity"%string []); (Pallet "Proxy"%string []); (Pallet "Multisig"%string []); (Pallet "Bounties"%string []); (Pallet "ChildBounties"%string []); (Pallet "ElectionProviderMultiPhase"%string []); (Pallet "VoterList"%string []); (Pallet "NominationPools"%string []); (Pallet "FastUnstake"%string []); (Pallet "ParachainsOrigin"%string []); (Pallet "Configuration"%string []); (Pallet "ParasShared"%string []); (Pallet "ParaInclusion"%string []); (Pallet "ParaInherent"%string []); (Pallet "ParaScheduler"%string []); (Pallet "Paras"%string []); (Pallet "Initializer"%string []); (Pallet "Dmp"%string []); (Pallet "Hrmp"%string []); (Pallet "ParaSessionInfo"%string []); (Pallet "ParasDisputes"%string []); (Pallet "ParasSlashing"%string []); (Pallet "ParaAssignmentProvider"%string []); (Pallet "Registrar"%string []); (Pallet "Slots"%string []); (Pallet "Auctions"%string []); (Pallet "Crowdloan"%string []); (Pallet "XcmPallet"%string []); (Pallet "MessageQueue"%string [])] (ExtrinsicParams 88%N 68%N 347%N 774%N) 4%N [(ExtMeta "CheckNonZeroSender"%string 775%N 34%N); (ExtMeta "CheckSpecVersion"%string 776%N 4%N); (ExtMeta "CheckTxVersion"%string 777%N 4%N); (ExtMeta "CheckGenesis"%string 778%N 12%N); (ExtMeta "CheckMortality"%string 779%N 12%N); (ExtMeta "CheckNonce"%string 781%N 34%N); (ExtMeta "CheckWeight"%string 782%N 34%N); (ExtMeta "ChargeTransactionPayment"%string 783%N 34%N); (ExtMeta "PrevalidateAttests"%string 784%N 34%N)]).
Definition nv := match m_spec_name_version md with inl x => x | inr _ => SpecNameVersion "" [] end.
Example tr_13_call :
 match (parse_transaction (slice_buffer (unhex "641a04100000083434000008383800000c31333200000c313736d503040b63ce64c10c0541420f001800000091b171bb158e2d3848fa23a9f1c25182fb8e20313b2c1eb49219da7a70ce90c391b171bb158e2d3848fa23a9f1c25182fb8e20313b2c1eb49219da7a70ce90c3"%string)) md (Some (unhex "91b171bb158e2d3848fa23a9f1c25182fb8e20313b2c1eb49219da7a70ce90c3")) 0 tt) with (Ok (TransactionParsed (inl c) x), _, _) => show_all bs (card_call b58 idn (ShortSpecs 0%N 10%N "DOT") (string_of_bytes (spec_name nv)) c 0) | _ => "FAIL"%string end
 = "Pallet: Utility
  Call: force_batch
    Field Name: calls
      Sequence: 4 element(s)
        Pallet: System
          Call: remark
            Field Name: remark
              Text: 44
        Pallet: System
          Call: remark
            Field Name: remark
              Text: 88
        Pallet: System
          Call: remark
            Field Name: remark
              Text: 132
        Pallet: System
          Call: remark
            Field Name: remark
              Text: 176"%string.
Proof. vm_compute. reflexivity. Qed.
Example tr_13_extensions :
 match (parse_transaction (slice_buffer (unhex "641a04100000083434000008383800000c31333200000c313736d503040b63ce64c10c0541420f001800000091b171bb158e2d3848fa23a9f1c25182fb8e20313b2c1eb49219da7a70ce90c391b171bb158e2d3848fa23a9f1c25182fb8e20313b2c1eb49219da7a70ce90c3"%string)) md (Some (unhex "91b171bb158e2d3848fa23a9f1c25182fb8e20313b2c1eb49219da7a70ce90c3")) 0 tt) with (Ok (TransactionParsed (inl c) x), _, _) => show_all bs (card_extensions b58 idn (ShortSpecs 0%N 10%N "DOT") (string_of_bytes (spec_name nv)) x) | _ => "FAIL"%string end
 = "Era: Mortal, phase: 61, period: 64
Nonce: 1
Tip: 555.2342355555 DOT
Chain: polkadot1000001
Tx Version: 24
Genesis Hash: 91b171bb158e2d3848fa23a9f1c25182fb8e20313b2c1eb49219da7a70ce90c3
Block Hash: 91b171bb158e2d3848fa23a9f1c25182fb8e20313b2c1eb49219da7a70ce90c3"%string.
Proof. vm_compute. reflexivity. Qed.
