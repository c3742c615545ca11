(** GENERATED from /repo/for_tests/polkadot9430 and /repo/src/tests.rs: the tests of the
    repository on this metadata replayed on the model (tests of the fidelity of the
    model, not proofs of properties). Identicons are not compared. *)
From Verif Require Import Base Compact Types Indicators Decode Sign Meta Balance Cards Unchecked.
From Verif Require Address.
Definition b58 := Address.address.
Definition idn (b : bytes) : bytes := [].
Definition bs := Address.bits_text.
Fixpoint unhex (s : string) : bytes :=
  let v c := let n := N_of_ascii c in if (n <? 58)%N then (n - 48)%N else (n - 87)%N in
  match s with String a (String b r) => (16 * v a + v b)%N :: unhex r | _ => [] end.
Definition md_t0 : ty := (Ty ["sp_core"%string; "crypto"%string; "AccountId32"%string] [] (TComposite [(Field None 1%N (Some "[u8; 32]"%string) [])]) []).
Definition md_t1 : ty := (Ty [] [] (TArray 32%N 2%N) []).
Definition md_t2 : ty := (Ty [] [] (TPrimitive (PrU U8)) []).
Definition md_t3 : ty := (Ty ["frame_system"%string; "AccountInfo"%string] [("Index"%string,(Some 4%N)); ("AccountData"%string,(Some 5%N))] (TComposite [(Field (Some "nonce"%string) 4%N (Some "Index"%string) []); (Field (Some "consumers"%string) 4%N (Some "RefCount"%string) []); (Field (Some "providers"%string) 4%N (Some "RefCount"%string) []); (Field (Some "sufficients"%string) 4%N (Some "RefCount"%string) []); (Field (Some "data"%string) 5%N (Some "AccountData"%string) [])]) []).
Definition md_t4 : ty := (Ty [] [] (TPrimitive (PrU U32)) []).
Definition md_t5 : ty := (Ty ["pallet_balances"%string; "types"%string; "AccountData"%string] [("Balance"%string,(Some 6%N))] (TComposite [(Field (Some "free"%string) 6%N (Some "Balance"%string) []); (Field (Some "reserved"%string) 6%N (Some "Balance"%string) []); (Field (Some "frozen"%string) 6%N (Some "Balance"%string) []); (Field (Some "flags"%string) 7%N (Some "ExtraFlags"%string) [])]) []).
Definition md_t6 : ty := (Ty [] [] (TPrimitive (PrU U128)) []).
Definition md_t7 : ty := (Ty ["pallet_balances"%string; "types"%string; "ExtraFlags"%string] [] (TComposite [(Field None 6%N (Some "u128"%string) [])]) []).
Definition md_t8 : ty := (Ty ["frame_support"%string; "dispatch"%string; "PerDispatchClass"%string] [("T"%string,(Some 9%N))] (TComposite [(Field (Some "normal"%string) 9%N (Some "T"%string) []); (Field (Some "operational"%string) 9%N (Some "T"%string) []); (Field (Some "mandatory"%string) 9%N (Some "T"%string) [])]) []).
Definition md_t9 : ty := (Ty ["sp_weights"%string; "weight_v2"%string; "Weight"%string] [] (TComposite [(Field (Some "ref_time"%string) 10%N (Some "u64"%string) []); (Field (Some "proof_size"%string) 10%N (Some "u64"%string) [])]) []).
Definition md_t10 : ty := (Ty [] [] (TCompact 11%N) []).
Definition md_t11 : ty := (Ty [] [] (TPrimitive (PrU U64)) []).
Definition md_t12 : ty := (Ty ["primitive_types"%string; "H256"%string] [] (TComposite [(Field None 1%N (Some "[u8; 32]"%string) [])]) []).
Definition md_t13 : ty := (Ty [] [] (TSequence 2%N) []).
Definition md_t14 : ty := (Ty ["sp_runtime"%string; "generic"%string; "digest"%string; "Digest"%string] [] (TComposite [(Field (Some "logs"%string) 15%N (Some "Vec<DigestItem>"%string) [])]) []).
Definition md_t15 : ty := (Ty [] [] (TSequence 16%N) []).
Definition md_t16 : ty := (Ty ["sp_runtime"%string; "generic"%string; "digest"%string; "DigestItem"%string] [] (TVariant [(Variant "PreRuntime"%string [(Field None 17%N (Some "ConsensusEngineId"%string) []); (Field None 13%N (Some "Vec<u8>"%string) [])] 6%N []); (Variant "Consensus"%string [(Field None 17%N (Some "ConsensusEngineId"%string) []); (Field None 13%N (Some "Vec<u8>"%string) [])] 4%N []); (Variant "Seal"%string [(Field None 17%N (Some "ConsensusEngineId"%string) []); (Field None 13%N (Some "Vec<u8>"%string) [])] 5%N []); (Variant "Other"%string [(Field None 13%N (Some "Vec<u8>"%string) [])] 0%N []); (Variant "RuntimeEnvironmentUpdated"%string [] 8%N [])]) []).
Definition md_t17 : ty := (Ty [] [] (TArray 4%N 2%N) []).
Definition md_t18 : ty := (Ty [] [] (TSequence 19%N) []).
Definition md_t19 : ty := (Ty ["frame_system"%string; "EventRecord"%string] [("E"%string,(Some 20%N)); ("T"%string,(Some 12%N))] (TComposite [(Field (Some "phase"%string) 479%N (Some "Phase"%string) []); (Field (Some "event"%string) 20%N (Some "E"%string) []); (Field (Some "topics"%string) 480%N (Some "Vec<T>"%string) [])]) []).
Definition md_t20 : ty := (Ty ["polkadot_runtime"%string; "RuntimeEvent"%string] [] (TVariant [(Variant "System"%string [(Field None 21%N (Some "frame_system::Event<Runtime>"%string) [])] 0%N []); (Variant "Scheduler"%string [(Field None 30%N (Some "pallet_scheduler::Event<Runtime>"%string) [])] 1%N []); (Variant "Preimage"%string [(Field None 35%N (Some "pallet_preimage::Event<Runtime>"%string) [])] 10%N []); (Variant "Indices"%string [(Field None 36%N (Some "pallet_indices::Event<Runtime>"%string) [])] 4%N []); (Variant "Balances"%string [(Field None 37%N (Some "pallet_balances::Event<Runtime>"%string) [])] 5%N []); (Variant "TransactionPayment"%string [(Field None 39%N (Some "pallet_transaction_payment::Event<Runtime>"%string) [])] 32%N []); (Variant "Staking"%string [(Field None 40%N (Some "pallet_staking::Event<Runtime>"%string) [])] 7%N []); (Variant "Offences"%string [(Field None 46%N (Some "pallet_offences::Event"%string) [])] 8%N []); (Variant "Session"%string [(Field None 48%N (Some "pallet_session::Event"%string) [])] 9%N []); (Variant "Grandpa"%string [(Field None 49%N (Some "pallet_grandpa::Event"%string) [])] 11%N []); (Variant "ImOnline"%string [(Field None 54%N (Some "pallet_im_online::Event<Runtime>"%string) [])] 12%N []); (Variant "Democracy"%string [(Field None 63%N (Some "pallet_democracy::Event<Runtime>"%string) [])] 14%N []); (Variant "Council"%string [(Field None 68%N (Some "pallet_collective::Event<Runtime, pallet_collective::Instance1>"%string) [])] 15%N []); (Variant "TechnicalCommittee"%string [(Field None 69%N (Some "pallet_collective::Event<Runtime, pallet_collective::Instance2>"%string) [])] 16%N []); (Variant "PhragmenElection"%string [(Field None 70%N (Some "pallet_elections_phragmen::Event<Runtime>"%string) [])] 17%N []); (Variant "TechnicalMembership"%string [(Field None 73%N (Some "pallet_membership::Event<Runtime, pallet_membership::Instance1>"%string) [])] 18%N []); (Variant "Treasury"%string [(Field None 74%N (Some "pallet_treasury::Event<Runtime>"%string) [])] 19%N []); (Variant "ConvictionVoting"%string [(Field None 75%N (Some "pallet_conviction_voting::Event<Runtime>"%string) [])] 20%N []); (Variant "Referenda"%string [(Field None 76%N (Some "pallet_referenda::Event<Runtime>"%string) [])] 21%N []); (Variant "Whitelist"%string [(Field None 441%N (Some "pallet_whitelist::Event<Runtime>"%string) [])] 23%N []); (Variant "Claims"%string [(Field None 446%N (Some "claims::Event<Runtime>"%string) [])] 24%N []); (Variant "Vesting"%string [(Field None 447%N (Some "pallet_vesting::Event<Runtime>"%string) [])] 25%N []); (Variant "Utility"%string [(Field None 448%N (Some "pallet_utility::Event"%string) [])] 26%N []); (Variant "Identity"%string [(Field None 449%N (Some "pallet_identity::Event<Runtime>"%string) [])] 28%N []); (Variant "Proxy"%string [(Field None 450%N (Some "pallet_proxy::Event<Runtime>"%string) [])] 29%N []); (Variant "Multisig"%string [(Field None 451%N (Some "pallet_multisig::Event<Runtime>"%string) [])] 30%N []); (Variant "Bounties"%string [(Field None 452%N (Some "pallet_bounties::Event<Runtime>"%string) [])] 34%N []); (Variant "ChildBounties"%string [(Field None 453%N (Some "pallet_child_bounties::Event<Runtime>"%string) [])] 38%N []); (Variant "Tips"%string [(Field None 454%N (Some "pallet_tips::Event<Runtime>"%string) [])] 35%N []); (Variant "ElectionProviderMultiPhase"%string [(Field None 455%N (Some "pallet_election_provider_multi_phase::Event<Runtime>"%string) [])] 36%N []); (Variant "VoterList"%string [(Field None 459%N (Some "pallet_bags_list::Event<Runtime, pallet_bags_list::Instance1>"%string) [])] 37%N []); (Variant "NominationPools"%string [(Field None 460%N (Some "pallet_nomination_pools::Event<Runtime>"%string) [])] 39%N []); (Variant "FastUnstake"%string [(Field None 461%N (Some "pallet_fast_unstake::Event<Runtime>"%string) [])] 40%N []); (Variant "ParaInclusion"%string [(Field None 462%N (Some "parachains_inclusion::Event<Runtime>"%string) [])] 53%N []); (Variant "Paras"%string [(Field None 466%N (Some "parachains_paras::Event"%string) [])] 56%N []); (Variant "Hrmp"%string [(Field None 467%N (Some "parachains_hrmp::Event<Runtime>"%string) [])] 60%N []); (Variant "ParasDisputes"%string [(Field None 468%N (Some "parachains_disputes::Event<Runtime>"%string) [])] 62%N []); (Variant "Registrar"%string [(Field None 471%N (Some "paras_registrar::Event<Runtime>"%string) [])] 70%N []); (Variant "Slots"%string [(Field None 472%N (Some "slots::Event<Runtime>"%string) [])] 71%N []); (Variant "Auctions"%string [(Field None 473%N (Some "auctions::Event<Runtime>"%string) [])] 72%N []); (Variant "Crowdloan"%string [(Field None 474%N (Some "crowdloan::Event<Runtime>"%string) [])] 73%N []); (Variant "XcmPallet"%string [(Field None 475%N (Some "pallet_xcm::Event<Runtime>"%string) [])] 99%N []); (Variant "MessageQueue"%string [(Field None 477%N (Some "pallet_message_queue::Event<Runtime>"%string) [])] 100%N [])]) []).
Definition md_t21 : ty := (Ty ["frame_system"%string; "pallet"%string; "Event"%string] [("T"%string,None)] (TVariant [(Variant "ExtrinsicSuccess"%string [(Field (Some "dispatch_info"%string) 22%N (Some "DispatchInfo"%string) [])] 0%N ["An extrinsic completed successfully."%string]); (Variant "ExtrinsicFailed"%string [(Field (Some "dispatch_error"%string) 25%N (Some "DispatchError"%string) []); (Field (Some "dispatch_info"%string) 22%N (Some "DispatchInfo"%string) [])] 1%N ["An extrinsic failed."%string]); (Variant "CodeUpdated"%string [] 2%N ["`:code` was updated."%string]); (Variant "NewAccount"%string [(Field (Some "account"%string) 0%N (Some "T::AccountId"%string) [])] 3%N ["A new account was created."%string]); (Variant "KilledAccount"%string [(Field (Some "account"%string) 0%N (Some "T::AccountId"%string) [])] 4%N ["An account was reaped."%string]); (Variant "Remarked"%string [(Field (Some "sender"%string) 0%N (Some "T::AccountId"%string) []); (Field (Some "hash"%string) 12%N (Some "T::Hash"%string) [])] 5%N ["On on-chain remark happened."%string])]) ["Event for the System pallet."%string]).
Definition md_t22 : ty := (Ty ["frame_support"%string; "dispatch"%string; "DispatchInfo"%string] [] (TComposite [(Field (Some "weight"%string) 9%N (Some "Weight"%string) []); (Field (Some "class"%string) 23%N (Some "DispatchClass"%string) []); (Field (Some "pays_fee"%string) 24%N (Some "Pays"%string) [])]) []).
Definition md_t23 : ty := (Ty ["frame_support"%string; "dispatch"%string; "DispatchClass"%string] [] (TVariant [(Variant "Normal"%string [] 0%N []); (Variant "Operational"%string [] 1%N []); (Variant "Mandatory"%string [] 2%N [])]) []).
Definition md_t24 : ty := (Ty ["frame_support"%string; "dispatch"%string; "Pays"%string] [] (TVariant [(Variant "Yes"%string [] 0%N []); (Variant "No"%string [] 1%N [])]) []).
Definition md_t25 : ty := (Ty ["sp_runtime"%string; "DispatchError"%string] [] (TVariant [(Variant "Other"%string [] 0%N []); (Variant "CannotLookup"%string [] 1%N []); (Variant "BadOrigin"%string [] 2%N []); (Variant "Module"%string [(Field None 26%N (Some "ModuleError"%string) [])] 3%N []); (Variant "ConsumerRemaining"%string [] 4%N []); (Variant "NoProviders"%string [] 5%N []); (Variant "TooManyConsumers"%string [] 6%N []); (Variant "Token"%string [(Field None 27%N (Some "TokenError"%string) [])] 7%N []); (Variant "Arithmetic"%string [(Field None 28%N (Some "ArithmeticError"%string) [])] 8%N []); (Variant "Transactional"%string [(Field None 29%N (Some "TransactionalError"%string) [])] 9%N []); (Variant "Exhausted"%string [] 10%N []); (Variant "Corruption"%string [] 11%N []); (Variant "Unavailable"%string [] 12%N []); (Variant "RootNotAllowed"%string [] 13%N [])]) []).
Definition md_t26 : ty := (Ty ["sp_runtime"%string; "ModuleError"%string] [] (TComposite [(Field (Some "index"%string) 2%N (Some "u8"%string) []); (Field (Some "error"%string) 17%N (Some "[u8; MAX_MODULE_ERROR_ENCODED_SIZE]"%string) [])]) []).
Definition md_t27 : ty := (Ty ["sp_runtime"%string; "TokenError"%string] [] (TVariant [(Variant "FundsUnavailable"%string [] 0%N []); (Variant "OnlyProvider"%string [] 1%N []); (Variant "BelowMinimum"%string [] 2%N []); (Variant "CannotCreate"%string [] 3%N []); (Variant "UnknownAsset"%string [] 4%N []); (Variant "Frozen"%string [] 5%N []); (Variant "Unsupported"%string [] 6%N []); (Variant "CannotCreateHold"%string [] 7%N []); (Variant "NotExpendable"%string [] 8%N []); (Variant "Blocked"%string [] 9%N [])]) []).
Definition md_t28 : ty := (Ty ["sp_arithmetic"%string; "ArithmeticError"%string] [] (TVariant [(Variant "Underflow"%string [] 0%N []); (Variant "Overflow"%string [] 1%N []); (Variant "DivisionByZero"%string [] 2%N [])]) []).
Definition md_t29 : ty := (Ty ["sp_runtime"%string; "TransactionalError"%string] [] (TVariant [(Variant "LimitReached"%string [] 0%N []); (Variant "NoLayer"%string [] 1%N [])]) []).
Definition md_t30 : ty := (Ty ["pallet_scheduler"%string; "pallet"%string; "Event"%string] [("T"%string,None)] (TVariant [(Variant "Scheduled"%string [(Field (Some "when"%string) 4%N (Some "T::BlockNumber"%string) []); (Field (Some "index"%string) 4%N (Some "u32"%string) [])] 0%N ["Scheduled some task."%string]); (Variant "Canceled"%string [(Field (Some "when"%string) 4%N (Some "T::BlockNumber"%string) []); (Field (Some "index"%string) 4%N (Some "u32"%string) [])] 1%N ["Canceled some task."%string]); (Variant "Dispatched"%string [(Field (Some "task"%string) 31%N (Some "TaskAddress<T::BlockNumber>"%string) []); (Field (Some "id"%string) 32%N (Some "Option<TaskName>"%string) []); (Field (Some "result"%string) 33%N (Some "DispatchResult"%string) [])] 2%N ["Dispatched some task."%string]); (Variant "CallUnavailable"%string [(Field (Some "task"%string) 31%N (Some "TaskAddress<T::BlockNumber>"%string) []); (Field (Some "id"%string) 32%N (Some "Option<TaskName>"%string) [])] 3%N ["The call for the provided hash was not found so the task has been aborted."%string]); (Variant "PeriodicFailed"%string [(Field (Some "task"%string) 31%N (Some "TaskAddress<T::BlockNumber>"%string) []); (Field (Some "id"%string) 32%N (Some "Option<TaskName>"%string) [])] 4%N ["The given task was unable to be renewed since the agenda is full at that block."%string]); (Variant "PermanentlyOverweight"%string [(Field (Some "task"%string) 31%N (Some "TaskAddress<T::BlockNumber>"%string) []); (Field (Some "id"%string) 32%N (Some "Option<TaskName>"%string) [])] 5%N ["The given task can never be executed since it is overweight."%string])]) ["Events type."%string]).
Definition md_t31 : ty := (Ty [] [] (TTuple [4%N; 4%N]) []).
Definition md_t32 : ty := (Ty ["Option"%string] [("T"%string,(Some 1%N))] (TVariant [(Variant "None"%string [] 0%N []); (Variant "Some"%string [(Field None 1%N None [])] 1%N [])]) []).
Definition md_t33 : ty := (Ty ["Result"%string] [("T"%string,(Some 34%N)); ("E"%string,(Some 25%N))] (TVariant [(Variant "Ok"%string [(Field None 34%N None [])] 0%N []); (Variant "Err"%string [(Field None 25%N None [])] 1%N [])]) []).
Definition md_t34 : ty := (Ty [] [] (TTuple []) []).
Definition md_t35 : ty := (Ty ["pallet_preimage"%string; "pallet"%string; "Event"%string] [("T"%string,None)] (TVariant [(Variant "Noted"%string [(Field (Some "hash"%string) 12%N (Some "T::Hash"%string) [])] 0%N ["A preimage has been noted."%string]); (Variant "Requested"%string [(Field (Some "hash"%string) 12%N (Some "T::Hash"%string) [])] 1%N ["A preimage has been requested."%string]); (Variant "Cleared"%string [(Field (Some "hash"%string) 12%N (Some "T::Hash"%string) [])] 2%N ["A preimage has ben cleared."%string])]) ["
			The [event](https://docs.substrate.io/main-docs/build/events-errors/) emitted
			by this pallet.
			"%string]).
Definition md_t36 : ty := (Ty ["pallet_indices"%string; "pallet"%string; "Event"%string] [("T"%string,None)] (TVariant [(Variant "IndexAssigned"%string [(Field (Some "who"%string) 0%N (Some "T::AccountId"%string) []); (Field (Some "index"%string) 4%N (Some "T::AccountIndex"%string) [])] 0%N ["A account index was assigned."%string]); (Variant "IndexFreed"%string [(Field (Some "index"%string) 4%N (Some "T::AccountIndex"%string) [])] 1%N ["A account index has been freed up (unassigned)."%string]); (Variant "IndexFrozen"%string [(Field (Some "index"%string) 4%N (Some "T::AccountIndex"%string) []); (Field (Some "who"%string) 0%N (Some "T::AccountId"%string) [])] 2%N ["A account index has been frozen to its current account ID."%string])]) ["
			The [event](https://docs.substrate.io/main-docs/build/events-errors/) emitted
			by this pallet.
			"%string]).
Definition md_t37 : ty := (Ty ["pallet_balances"%string; "pallet"%string; "Event"%string] [("T"%string,None); ("I"%string,None)] (TVariant [(Variant "Endowed"%string [(Field (Some "account"%string) 0%N (Some "T::AccountId"%string) []); (Field (Some "free_balance"%string) 6%N (Some "T::Balance"%string) [])] 0%N ["An account was created with some free balance."%string]); (Variant "DustLost"%string [(Field (Some "account"%string) 0%N (Some "T::AccountId"%string) []); (Field (Some "amount"%string) 6%N (Some "T::Balance"%string) [])] 1%N ["An account was removed whose balance was non-zero but below ExistentialDeposit,"%string; "resulting in an outright loss."%string]); (Variant "Transfer"%string [(Field (Some "from"%string) 0%N (Some "T::AccountId"%string) []); (Field (Some "to"%string) 0%N (Some "T::AccountId"%string) []); (Field (Some "amount"%string) 6%N (Some "T::Balance"%string) [])] 2%N ["Transfer succeeded."%string]); (Variant "BalanceSet"%string [(Field (Some "who"%string) 0%N (Some "T::AccountId"%string) []); (Field (Some "free"%string) 6%N (Some "T::Balance"%string) [])] 3%N ["A balance was set by root."%string]); (Variant "Reserved"%string [(Field (Some "who"%string) 0%N (Some "T::AccountId"%string) []); (Field (Some "amount"%string) 6%N (Some "T::Balance"%string) [])] 4%N ["Some balance was reserved (moved from free to reserved)."%string]); (Variant "Unreserved"%string [(Field (Some "who"%string) 0%N (Some "T::AccountId"%string) []); (Field (Some "amount"%string) 6%N (Some "T::Balance"%string) [])] 5%N ["Some balance was unreserved (moved from reserved to free)."%string]); (Variant "ReserveRepatriated"%string [(Field (Some "from"%string) 0%N (Some "T::AccountId"%string) []); (Field (Some "to"%string) 0%N (Some "T::AccountId"%string) []); (Field (Some "amount"%string) 6%N (Some "T::Balance"%string) []); (Field (Some "destination_status"%string) 38%N (Some "Status"%string) [])] 6%N ["Some balance was moved from the reserve of the first account to the second account."%string; "Final argument indicates the destination balance type."%string]); (Variant "Deposit"%string [(Field (Some "who"%string) 0%N (Some "T::AccountId"%string) []); (Field (Some "amount"%string) 6%N (Some "T::Balance"%string) [])] 7%N ["Some amount was deposited (e.g. for transaction fees)."%string]); (Variant "Withdraw"%string [(Field (Some "who"%string) 0%N (Some "T::AccountId"%string) []); (Field (Some "amount"%string) 6%N (Some "T::Balance"%string) [])] 8%N ["Some amount was withdrawn from the account (e.g. for transaction fees)."%string]); (Variant "Slashed"%string [(Field (Some "who"%string) 0%N (Some "T::AccountId"%string) []); (Field (Some "amount"%string) 6%N (Some "T::Balance"%string) [])] 9%N ["Some amount was removed from the account (e.g. for misbehavior)."%string]); (Variant "Minted"%string [(Field (Some "who"%string) 0%N (Some "T::AccountId"%string) []); (Field (Some "amount"%string) 6%N (Some "T::Balance"%string) [])] 10%N ["Some amount was minted into an account."%string]); (Variant "Burned"%string [(Field (Some "who"%string) 0%N (Some "T::AccountId"%string) []); (Field (Some "amount"%string) 6%N (Some "T::Balance"%string) [])] 11%N ["Some amount was burned from an account."%string]); (Variant "Suspended"%string [(Field (Some "who"%string) 0%N (Some "T::AccountId"%string) []); (Field (Some "amount"%string) 6%N (Some "T::Balance"%string) [])] 12%N ["Some amount was suspended from an account (it can be restored later)."%string]); (Variant "Restored"%string [(Field (Some "who"%string) 0%N (Some "T::AccountId"%string) []); (Field (Some "amount"%string) 6%N (Some "T::Balance"%string) [])] 13%N ["Some amount was restored into an account."%string]); (Variant "Upgraded"%string [(Field (Some "who"%string) 0%N (Some "T::AccountId"%string) [])] 14%N ["An account was upgraded."%string]); (Variant "Issued"%string [(Field (Some "amount"%string) 6%N (Some "T::Balance"%string) [])] 15%N ["Total issuance was increased by `amount`, creating a credit to be balanced."%string]); (Variant "Rescinded"%string [(Field (Some "amount"%string) 6%N (Some "T::Balance"%string) [])] 16%N ["Total issuance was decreased by `amount`, creating a debt to be balanced."%string]); (Variant "Locked"%string [(Field (Some "who"%string) 0%N (Some "T::AccountId"%string) []); (Field (Some "amount"%string) 6%N (Some "T::Balance"%string) [])] 17%N ["Some balance was locked."%string]); (Variant "Unlocked"%string [(Field (Some "who"%string) 0%N (Some "T::AccountId"%string) []); (Field (Some "amount"%string) 6%N (Some "T::Balance"%string) [])] 18%N ["Some balance was unlocked."%string]); (Variant "Frozen"%string [(Field (Some "who"%string) 0%N (Some "T::AccountId"%string) []); (Field (Some "amount"%string) 6%N (Some "T::Balance"%string) [])] 19%N ["Some balance was frozen."%string]); (Variant "Thawed"%string [(Field (Some "who"%string) 0%N (Some "T::AccountId"%string) []); (Field (Some "amount"%string) 6%N (Some "T::Balance"%string) [])] 20%N ["Some balance was thawed."%string])]) ["
			The [event](https://docs.substrate.io/main-docs/build/events-errors/) emitted
			by this pallet.
			"%string]).
Definition md_t38 : ty := (Ty ["frame_support"%string; "traits"%string; "tokens"%string; "misc"%string; "BalanceStatus"%string] [] (TVariant [(Variant "Free"%string [] 0%N []); (Variant "Reserved"%string [] 1%N [])]) []).
Definition md_t39 : ty := (Ty ["pallet_transaction_payment"%string; "pallet"%string; "Event"%string] [("T"%string,None)] (TVariant [(Variant "TransactionFeePaid"%string [(Field (Some "who"%string) 0%N (Some "T::AccountId"%string) []); (Field (Some "actual_fee"%string) 6%N (Some "BalanceOf<T>"%string) []); (Field (Some "tip"%string) 6%N (Some "BalanceOf<T>"%string) [])] 0%N ["A transaction fee `actual_fee`, of which `tip` was added to the minimum inclusion fee,"%string; "has been paid by `who`."%string])]) ["
			The [event](https://docs.substrate.io/main-docs/build/events-errors/) emitted
			by this pallet.
			"%string]).
Definition md_t40 : ty := (Ty ["pallet_staking"%string; "pallet"%string; "pallet"%string; "Event"%string] [("T"%string,None)] (TVariant [(Variant "EraPaid"%string [(Field (Some "era_index"%string) 4%N (Some "EraIndex"%string) []); (Field (Some "validator_payout"%string) 6%N (Some "BalanceOf<T>"%string) []); (Field (Some "remainder"%string) 6%N (Some "BalanceOf<T>"%string) [])] 0%N ["The era payout has been set; the first balance is the validator-payout; the second is"%string; "the remainder from the maximum amount of reward."%string]); (Variant "Rewarded"%string [(Field (Some "stash"%string) 0%N (Some "T::AccountId"%string) []); (Field (Some "amount"%string) 6%N (Some "BalanceOf<T>"%string) [])] 1%N ["The nominator has been rewarded by this amount."%string]); (Variant "Slashed"%string [(Field (Some "staker"%string) 0%N (Some "T::AccountId"%string) []); (Field (Some "amount"%string) 6%N (Some "BalanceOf<T>"%string) [])] 2%N ["A staker (validator or nominator) has been slashed by the given amount."%string]); (Variant "SlashReported"%string [(Field (Some "validator"%string) 0%N (Some "T::AccountId"%string) []); (Field (Some "fraction"%string) 41%N (Some "Perbill"%string) []); (Field (Some "slash_era"%string) 4%N (Some "EraIndex"%string) [])] 3%N ["A slash for the given validator, for the given percentage of their stake, at the given"%string; "era as been reported."%string]); (Variant "OldSlashingReportDiscarded"%string [(Field (Some "session_index"%string) 4%N (Some "SessionIndex"%string) [])] 4%N ["An old slashing report from a prior era was discarded because it could"%string; "not be processed."%string]); (Variant "StakersElected"%string [] 5%N ["A new set of stakers was elected."%string]); (Variant "Bonded"%string [(Field (Some "stash"%string) 0%N (Some "T::AccountId"%string) []); (Field (Some "amount"%string) 6%N (Some "BalanceOf<T>"%string) [])] 6%N ["An account has bonded this amount. \[stash, amount\]"%string; ""%string; "NOTE: This event is only emitted when funds are bonded via a dispatchable. Notably,"%string; "it will not be emitted for staking rewards when they are added to stake."%string]); (Variant "Unbonded"%string [(Field (Some "stash"%string) 0%N (Some "T::AccountId"%string) []); (Field (Some "amount"%string) 6%N (Some "BalanceOf<T>"%string) [])] 7%N ["An account has unbonded this amount."%string]); (Variant "Withdrawn"%string [(Field (Some "stash"%string) 0%N (Some "T::AccountId"%string) []); (Field (Some "amount"%string) 6%N (Some "BalanceOf<T>"%string) [])] 8%N ["An account has called `withdraw_unbonded` and removed unbonding chunks worth `Balance`"%string; "from the unlocking queue."%string]); (Variant "Kicked"%string [(Field (Some "nominator"%string) 0%N (Some "T::AccountId"%string) []); (Field (Some "stash"%string) 0%N (Some "T::AccountId"%string) [])] 9%N ["A nominator has been kicked from a validator."%string]); (Variant "StakingElectionFailed"%string [] 10%N ["The election failed. No new era is planned."%string]); (Variant "Chilled"%string [(Field (Some "stash"%string) 0%N (Some "T::AccountId"%string) [])] 11%N ["An account has stopped participating as either a validator or nominator."%string]); (Variant "PayoutStarted"%string [(Field (Some "era_index"%string) 4%N (Some "EraIndex"%string) []); (Field (Some "validator_stash"%string) 0%N (Some "T::AccountId"%string) [])] 12%N ["The stakers' rewards are getting paid."%string]); (Variant "ValidatorPrefsSet"%string [(Field (Some "stash"%string) 0%N (Some "T::AccountId"%string) []); (Field (Some "prefs"%string) 42%N (Some "ValidatorPrefs"%string) [])] 13%N ["A validator has set their preferences."%string]); (Variant "ForceEra"%string [(Field (Some "mode"%string) 45%N (Some "Forcing"%string) [])] 14%N ["A new force era mode was set."%string])]) ["
			The [event](https://docs.substrate.io/main-docs/build/events-errors/) emitted
			by this pallet.
			"%string]).
Definition md_t41 : ty := (Ty ["sp_arithmetic"%string; "per_things"%string; "Perbill"%string] [] (TComposite [(Field None 4%N (Some "u32"%string) [])]) []).
Definition md_t42 : ty := (Ty ["pallet_staking"%string; "ValidatorPrefs"%string] [] (TComposite [(Field (Some "commission"%string) 43%N (Some "Perbill"%string) []); (Field (Some "blocked"%string) 44%N (Some "bool"%string) [])]) []).
Definition md_t43 : ty := (Ty [] [] (TCompact 41%N) []).
Definition md_t44 : ty := (Ty [] [] (TPrimitive PrBool) []).
Definition md_t45 : ty := (Ty ["pallet_staking"%string; "Forcing"%string] [] (TVariant [(Variant "NotForcing"%string [] 0%N []); (Variant "ForceNew"%string [] 1%N []); (Variant "ForceNone"%string [] 2%N []); (Variant "ForceAlways"%string [] 3%N [])]) []).
Definition md_t46 : ty := (Ty ["pallet_offences"%string; "pallet"%string; "Event"%string] [] (TVariant [(Variant "Offence"%string [(Field (Some "kind"%string) 47%N (Some "Kind"%string) []); (Field (Some "timeslot"%string) 13%N (Some "OpaqueTimeSlot"%string) [])] 0%N ["There is an offence reported of the given `kind` happened at the `session_index` and"%string; "(kind-specific) time slot. This event is not deposited for duplicate slashes."%string; "\[kind, timeslot\]."%string])]) ["Events type."%string]).
Definition md_t47 : ty := (Ty [] [] (TArray 16%N 2%N) []).
Definition md_t48 : ty := (Ty ["pallet_session"%string; "pallet"%string; "Event"%string] [] (TVariant [(Variant "NewSession"%string [(Field (Some "session_index"%string) 4%N (Some "SessionIndex"%string) [])] 0%N ["New session has happened. Note that the argument is the session index, not the"%string; "block number as the type might suggest."%string])]) ["
			The [event](https://docs.substrate.io/main-docs/build/events-errors/) emitted
			by this pallet.
			"%string]).
Definition md_t49 : ty := (Ty ["pallet_grandpa"%string; "pallet"%string; "Event"%string] [] (TVariant [(Variant "NewAuthorities"%string [(Field (Some "authority_set"%string) 50%N (Some "AuthorityList"%string) [])] 0%N ["New authority set has been applied."%string]); (Variant "Paused"%string [] 1%N ["Current authority set has been paused."%string]); (Variant "Resumed"%string [] 2%N ["Current authority set has been resumed."%string])]) ["
			The [event](https://docs.substrate.io/main-docs/build/events-errors/) emitted
			by this pallet.
			"%string]).
Definition md_t50 : ty := (Ty [] [] (TSequence 51%N) []).
Definition md_t51 : ty := (Ty [] [] (TTuple [52%N; 11%N]) []).
Definition md_t52 : ty := (Ty ["sp_consensus_grandpa"%string; "app"%string; "Public"%string] [] (TComposite [(Field None 53%N (Some "ed25519::Public"%string) [])]) []).
Definition md_t53 : ty := (Ty ["sp_core"%string; "ed25519"%string; "Public"%string] [] (TComposite [(Field None 1%N (Some "[u8; 32]"%string) [])]) []).
Definition md_t54 : ty := (Ty ["pallet_im_online"%string; "pallet"%string; "Event"%string] [("T"%string,None)] (TVariant [(Variant "HeartbeatReceived"%string [(Field (Some "authority_id"%string) 55%N (Some "T::AuthorityId"%string) [])] 0%N ["A new heartbeat was received from `AuthorityId`."%string]); (Variant "AllGood"%string [] 1%N ["At the end of the session, no offence was committed."%string]); (Variant "SomeOffline"%string [(Field (Some "offline"%string) 57%N (Some "Vec<IdentificationTuple<T>>"%string) [])] 2%N ["At the end of the session, at least one validator was found to be offline."%string])]) ["
			The [event](https://docs.substrate.io/main-docs/build/events-errors/) emitted
			by this pallet.
			"%string]).
Definition md_t55 : ty := (Ty ["pallet_im_online"%string; "sr25519"%string; "app_sr25519"%string; "Public"%string] [] (TComposite [(Field None 56%N (Some "sr25519::Public"%string) [])]) []).
Definition md_t56 : ty := (Ty ["sp_core"%string; "sr25519"%string; "Public"%string] [] (TComposite [(Field None 1%N (Some "[u8; 32]"%string) [])]) []).
Definition md_t57 : ty := (Ty [] [] (TSequence 58%N) []).
Definition md_t58 : ty := (Ty [] [] (TTuple [0%N; 59%N]) []).
Definition md_t59 : ty := (Ty ["pallet_staking"%string; "Exposure"%string] [("AccountId"%string,(Some 0%N)); ("Balance"%string,(Some 6%N))] (TComposite [(Field (Some "total"%string) 60%N (Some "Balance"%string) []); (Field (Some "own"%string) 60%N (Some "Balance"%string) []); (Field (Some "others"%string) 61%N (Some "Vec<IndividualExposure<AccountId, Balance>>"%string) [])]) []).
Definition md_t60 : ty := (Ty [] [] (TCompact 6%N) []).
Definition md_t61 : ty := (Ty [] [] (TSequence 62%N) []).
Definition md_t62 : ty := (Ty ["pallet_staking"%string; "IndividualExposure"%string] [("AccountId"%string,(Some 0%N)); ("Balance"%string,(Some 6%N))] (TComposite [(Field (Some "who"%string) 0%N (Some "AccountId"%string) []); (Field (Some "value"%string) 60%N (Some "Balance"%string) [])]) []).
Definition md_t63 : ty := (Ty ["pallet_democracy"%string; "pallet"%string; "Event"%string] [("T"%string,None)] (TVariant [(Variant "Proposed"%string [(Field (Some "proposal_index"%string) 4%N (Some "PropIndex"%string) []); (Field (Some "deposit"%string) 6%N (Some "BalanceOf<T>"%string) [])] 0%N ["A motion has been proposed by a public account."%string]); (Variant "Tabled"%string [(Field (Some "proposal_index"%string) 4%N (Some "PropIndex"%string) []); (Field (Some "deposit"%string) 6%N (Some "BalanceOf<T>"%string) [])] 1%N ["A public proposal has been tabled for referendum vote."%string]); (Variant "ExternalTabled"%string [] 2%N ["An external proposal has been tabled."%string]); (Variant "Started"%string [(Field (Some "ref_index"%string) 4%N (Some "ReferendumIndex"%string) []); (Field (Some "threshold"%string) 64%N (Some "VoteThreshold"%string) [])] 3%N ["A referendum has begun."%string]); (Variant "Passed"%string [(Field (Some "ref_index"%string) 4%N (Some "ReferendumIndex"%string) [])] 4%N ["A proposal has been approved by referendum."%string]); (Variant "NotPassed"%string [(Field (Some "ref_index"%string) 4%N (Some "ReferendumIndex"%string) [])] 5%N ["A proposal has been rejected by referendum."%string]); (Variant "Cancelled"%string [(Field (Some "ref_index"%string) 4%N (Some "ReferendumIndex"%string) [])] 6%N ["A referendum has been cancelled."%string]); (Variant "Delegated"%string [(Field (Some "who"%string) 0%N (Some "T::AccountId"%string) []); (Field (Some "target"%string) 0%N (Some "T::AccountId"%string) [])] 7%N ["An account has delegated their vote to another account."%string]); (Variant "Undelegated"%string [(Field (Some "account"%string) 0%N (Some "T::AccountId"%string) [])] 8%N ["An account has cancelled a previous delegation operation."%string]); (Variant "Vetoed"%string [(Field (Some "who"%string) 0%N (Some "T::AccountId"%string) []); (Field (Some "proposal_hash"%string) 12%N (Some "H256"%string) []); (Field (Some "until"%string) 4%N (Some "T::BlockNumber"%string) [])] 9%N ["An external proposal has been vetoed."%string]); (Variant "Blacklisted"%string [(Field (Some "proposal_hash"%string) 12%N (Some "H256"%string) [])] 10%N ["A proposal_hash has been blacklisted permanently."%string]); (Variant "Voted"%string [(Field (Some "voter"%string) 0%N (Some "T::AccountId"%string) []); (Field (Some "ref_index"%string) 4%N (Some "ReferendumIndex"%string) []); (Field (Some "vote"%string) 65%N (Some "AccountVote<BalanceOf<T>>"%string) [])] 11%N ["An account has voted in a referendum"%string]); (Variant "Seconded"%string [(Field (Some "seconder"%string) 0%N (Some "T::AccountId"%string) []); (Field (Some "prop_index"%string) 4%N (Some "PropIndex"%string) [])] 12%N ["An account has secconded a proposal"%string]); (Variant "ProposalCanceled"%string [(Field (Some "prop_index"%string) 4%N (Some "PropIndex"%string) [])] 13%N ["A proposal got canceled."%string]); (Variant "MetadataSet"%string [(Field (Some "owner"%string) 67%N (Some "MetadataOwner"%string) ["Metadata owner."%string]); (Field (Some "hash"%string) 12%N (Some "PreimageHash"%string) ["Preimage hash."%string])] 14%N ["Metadata for a proposal or a referendum has been set."%string]); (Variant "MetadataCleared"%string [(Field (Some "owner"%string) 67%N (Some "MetadataOwner"%string) ["Metadata owner."%string]); (Field (Some "hash"%string) 12%N (Some "PreimageHash"%string) ["Preimage hash."%string])] 15%N ["Metadata for a proposal or a referendum has been cleared."%string]); (Variant "MetadataTransferred"%string [(Field (Some "prev_owner"%string) 67%N (Some "MetadataOwner"%string) ["Previous metadata owner."%string]); (Field (Some "owner"%string) 67%N (Some "MetadataOwner"%string) ["New metadata owner."%string]); (Field (Some "hash"%string) 12%N (Some "PreimageHash"%string) ["Preimage hash."%string])] 16%N ["Metadata has been transferred to new owner."%string])]) ["
			The [event](https://docs.substrate.io/main-docs/build/events-errors/) emitted
			by this pallet.
			"%string]).
Definition md_t64 : ty := (Ty ["pallet_democracy"%string; "vote_threshold"%string; "VoteThreshold"%string] [] (TVariant [(Variant "SuperMajorityApprove"%string [] 0%N []); (Variant "SuperMajorityAgainst"%string [] 1%N []); (Variant "SimpleMajority"%string [] 2%N [])]) []).
Definition md_t65 : ty := (Ty ["pallet_democracy"%string; "vote"%string; "AccountVote"%string] [("Balance"%string,(Some 6%N))] (TVariant [(Variant "Standard"%string [(Field (Some "vote"%string) 66%N (Some "Vote"%string) []); (Field (Some "balance"%string) 6%N (Some "Balance"%string) [])] 0%N []); (Variant "Split"%string [(Field (Some "aye"%string) 6%N (Some "Balance"%string) []); (Field (Some "nay"%string) 6%N (Some "Balance"%string) [])] 1%N [])]) []).
Definition md_t66 : ty := (Ty ["pallet_democracy"%string; "vote"%string; "Vote"%string] [] (TComposite [(Field None 2%N None [])]) []).
Definition md_t67 : ty := (Ty ["pallet_democracy"%string; "types"%string; "MetadataOwner"%string] [] (TVariant [(Variant "External"%string [] 0%N []); (Variant "Proposal"%string [(Field None 4%N (Some "PropIndex"%string) [])] 1%N []); (Variant "Referendum"%string [(Field None 4%N (Some "ReferendumIndex"%string) [])] 2%N [])]) []).
Definition md_t68 : ty := (Ty ["pallet_collective"%string; "pallet"%string; "Event"%string] [("T"%string,None); ("I"%string,None)] (TVariant [(Variant "Proposed"%string [(Field (Some "account"%string) 0%N (Some "T::AccountId"%string) []); (Field (Some "proposal_index"%string) 4%N (Some "ProposalIndex"%string) []); (Field (Some "proposal_hash"%string) 12%N (Some "T::Hash"%string) []); (Field (Some "threshold"%string) 4%N (Some "MemberCount"%string) [])] 0%N ["A motion (given hash) has been proposed (by given account) with a threshold (given"%string; "`MemberCount`)."%string]); (Variant "Voted"%string [(Field (Some "account"%string) 0%N (Some "T::AccountId"%string) []); (Field (Some "proposal_hash"%string) 12%N (Some "T::Hash"%string) []); (Field (Some "voted"%string) 44%N (Some "bool"%string) []); (Field (Some "yes"%string) 4%N (Some "MemberCount"%string) []); (Field (Some "no"%string) 4%N (Some "MemberCount"%string) [])] 1%N ["A motion (given hash) has been voted on by given account, leaving"%string; "a tally (yes votes and no votes given respectively as `MemberCount`)."%string]); (Variant "Approved"%string [(Field (Some "proposal_hash"%string) 12%N (Some "T::Hash"%string) [])] 2%N ["A motion was approved by the required threshold."%string]); (Variant "Disapproved"%string [(Field (Some "proposal_hash"%string) 12%N (Some "T::Hash"%string) [])] 3%N ["A motion was not approved by the required threshold."%string]); (Variant "Executed"%string [(Field (Some "proposal_hash"%string) 12%N (Some "T::Hash"%string) []); (Field (Some "result"%string) 33%N (Some "DispatchResult"%string) [])] 4%N ["A motion was executed; result will be `Ok` if it returned without error."%string]); (Variant "MemberExecuted"%string [(Field (Some "proposal_hash"%string) 12%N (Some "T::Hash"%string) []); (Field (Some "result"%string) 33%N (Some "DispatchResult"%string) [])] 5%N ["A single member did some action; result will be `Ok` if it returned without error."%string]); (Variant "Closed"%string [(Field (Some "proposal_hash"%string) 12%N (Some "T::Hash"%string) []); (Field (Some "yes"%string) 4%N (Some "MemberCount"%string) []); (Field (Some "no"%string) 4%N (Some "MemberCount"%string) [])] 6%N ["A proposal was closed because its threshold was reached or after its duration was up."%string])]) ["
			The [event](https://docs.substrate.io/main-docs/build/events-errors/) emitted
			by this pallet.
			"%string]).
Definition md_t69 : ty := (Ty ["pallet_collective"%string; "pallet"%string; "Event"%string] [("T"%string,None); ("I"%string,None)] (TVariant [(Variant "Proposed"%string [(Field (Some "account"%string) 0%N (Some "T::AccountId"%string) []); (Field (Some "proposal_index"%string) 4%N (Some "ProposalIndex"%string) []); (Field (Some "proposal_hash"%string) 12%N (Some "T::Hash"%string) []); (Field (Some "threshold"%string) 4%N (Some "MemberCount"%string) [])] 0%N ["A motion (given hash) has been proposed (by given account) with a threshold (given"%string; "`MemberCount`)."%string]); (Variant "Voted"%string [(Field (Some "account"%string) 0%N (Some "T::AccountId"%string) []); (Field (Some "proposal_hash"%string) 12%N (Some "T::Hash"%string) []); (Field (Some "voted"%string) 44%N (Some "bool"%string) []); (Field (Some "yes"%string) 4%N (Some "MemberCount"%string) []); (Field (Some "no"%string) 4%N (Some "MemberCount"%string) [])] 1%N ["A motion (given hash) has been voted on by given account, leaving"%string; "a tally (yes votes and no votes given respectively as `MemberCount`)."%string]); (Variant "Approved"%string [(Field (Some "proposal_hash"%string) 12%N (Some "T::Hash"%string) [])] 2%N ["A motion was approved by the required threshold."%string]); (Variant "Disapproved"%string [(Field (Some "proposal_hash"%string) 12%N (Some "T::Hash"%string) [])] 3%N ["A motion was not approved by the required threshold."%string]); (Variant "Executed"%string [(Field (Some "proposal_hash"%string) 12%N (Some "T::Hash"%string) []); (Field (Some "result"%string) 33%N (Some "DispatchResult"%string) [])] 4%N ["A motion was executed; result will be `Ok` if it returned without error."%string]); (Variant "MemberExecuted"%string [(Field (Some "proposal_hash"%string) 12%N (Some "T::Hash"%string) []); (Field (Some "result"%string) 33%N (Some "DispatchResult"%string) [])] 5%N ["A single member did some action; result will be `Ok` if it returned without error."%string]); (Variant "Closed"%string [(Field (Some "proposal_hash"%string) 12%N (Some "T::Hash"%string) []); (Field (Some "yes"%string) 4%N (Some "MemberCount"%string) []); (Field (Some "no"%string) 4%N (Some "MemberCount"%string) [])] 6%N ["A proposal was closed because its threshold was reached or after its duration was up."%string])]) ["
			The [event](https://docs.substrate.io/main-docs/build/events-errors/) emitted
			by this pallet.
			"%string]).
Definition md_t70 : ty := (Ty ["pallet_elections_phragmen"%string; "pallet"%string; "Event"%string] [("T"%string,None)] (TVariant [(Variant "NewTerm"%string [(Field (Some "new_members"%string) 71%N (Some "Vec<(<T as frame_system::Config>::AccountId, BalanceOf<T>)>"%string) [])] 0%N ["A new term with new_members. This indicates that enough candidates existed to run"%string; "the election, not that enough have has been elected. The inner value must be examined"%string; "for this purpose. A `NewTerm(\[\])` indicates that some candidates got their bond"%string; "slashed and none were elected, whilst `EmptyTerm` means that no candidates existed to"%string; "begin with."%string]); (Variant "EmptyTerm"%string [] 1%N ["No (or not enough) candidates existed for this round. This is different from"%string; "`NewTerm(\[\])`. See the description of `NewTerm`."%string]); (Variant "ElectionError"%string [] 2%N ["Internal error happened while trying to perform election."%string]); (Variant "MemberKicked"%string [(Field (Some "member"%string) 0%N (Some "<T as frame_system::Config>::AccountId"%string) [])] 3%N ["A member has been removed. This should always be followed by either `NewTerm` or"%string; "`EmptyTerm`."%string]); (Variant "Renounced"%string [(Field (Some "candidate"%string) 0%N (Some "<T as frame_system::Config>::AccountId"%string) [])] 4%N ["Someone has renounced their candidacy."%string]); (Variant "CandidateSlashed"%string [(Field (Some "candidate"%string) 0%N (Some "<T as frame_system::Config>::AccountId"%string) []); (Field (Some "amount"%string) 6%N (Some "BalanceOf<T>"%string) [])] 5%N ["A candidate was slashed by amount due to failing to obtain a seat as member or"%string; "runner-up."%string; ""%string; "Note that old members and runners-up are also candidates."%string]); (Variant "SeatHolderSlashed"%string [(Field (Some "seat_holder"%string) 0%N (Some "<T as frame_system::Config>::AccountId"%string) []); (Field (Some "amount"%string) 6%N (Some "BalanceOf<T>"%string) [])] 6%N ["A seat holder was slashed by amount by being forcefully removed from the set."%string])]) ["
			The [event](https://docs.substrate.io/main-docs/build/events-errors/) emitted
			by this pallet.
			"%string]).
Definition md_t71 : ty := (Ty [] [] (TSequence 72%N) []).
Definition md_t72 : ty := (Ty [] [] (TTuple [0%N; 6%N]) []).
Definition md_t73 : ty := (Ty ["pallet_membership"%string; "pallet"%string; "Event"%string] [("T"%string,None); ("I"%string,None)] (TVariant [(Variant "MemberAdded"%string [] 0%N ["The given member was added; see the transaction for who."%string]); (Variant "MemberRemoved"%string [] 1%N ["The given member was removed; see the transaction for who."%string]); (Variant "MembersSwapped"%string [] 2%N ["Two members were swapped; see the transaction for who."%string]); (Variant "MembersReset"%string [] 3%N ["The membership was reset; see the transaction for who the new set is."%string]); (Variant "KeyChanged"%string [] 4%N ["One of the members' keys changed."%string]); (Variant "Dummy"%string [] 5%N ["Phantom member, never used."%string])]) ["
			The [event](https://docs.substrate.io/main-docs/build/events-errors/) emitted
			by this pallet.
			"%string]).
Definition md_t74 : ty := (Ty ["pallet_treasury"%string; "pallet"%string; "Event"%string] [("T"%string,None); ("I"%string,None)] (TVariant [(Variant "Proposed"%string [(Field (Some "proposal_index"%string) 4%N (Some "ProposalIndex"%string) [])] 0%N ["New proposal."%string]); (Variant "Spending"%string [(Field (Some "budget_remaining"%string) 6%N (Some "BalanceOf<T, I>"%string) [])] 1%N ["We have ended a spend period and will now allocate funds."%string]); (Variant "Awarded"%string [(Field (Some "proposal_index"%string) 4%N (Some "ProposalIndex"%string) []); (Field (Some "award"%string) 6%N (Some "BalanceOf<T, I>"%string) []); (Field (Some "account"%string) 0%N (Some "T::AccountId"%string) [])] 2%N ["Some funds have been allocated."%string]); (Variant "Rejected"%string [(Field (Some "proposal_index"%string) 4%N (Some "ProposalIndex"%string) []); (Field (Some "slashed"%string) 6%N (Some "BalanceOf<T, I>"%string) [])] 3%N ["A proposal was rejected; funds were slashed."%string]); (Variant "Burnt"%string [(Field (Some "burnt_funds"%string) 6%N (Some "BalanceOf<T, I>"%string) [])] 4%N ["Some of our funds have been burnt."%string]); (Variant "Rollover"%string [(Field (Some "rollover_balance"%string) 6%N (Some "BalanceOf<T, I>"%string) [])] 5%N ["Spending has finished; this is the amount that rolls over until next spend."%string]); (Variant "Deposit"%string [(Field (Some "value"%string) 6%N (Some "BalanceOf<T, I>"%string) [])] 6%N ["Some funds have been deposited."%string]); (Variant "SpendApproved"%string [(Field (Some "proposal_index"%string) 4%N (Some "ProposalIndex"%string) []); (Field (Some "amount"%string) 6%N (Some "BalanceOf<T, I>"%string) []); (Field (Some "beneficiary"%string) 0%N (Some "T::AccountId"%string) [])] 7%N ["A new spend proposal has been approved."%string]); (Variant "UpdatedInactive"%string [(Field (Some "reactivated"%string) 6%N (Some "BalanceOf<T, I>"%string) []); (Field (Some "deactivated"%string) 6%N (Some "BalanceOf<T, I>"%string) [])] 8%N ["The inactive funds of the pallet have been updated."%string])]) ["
			The [event](https://docs.substrate.io/main-docs/build/events-errors/) emitted
			by this pallet.
			"%string]).
Definition md_t75 : ty := (Ty ["pallet_conviction_voting"%string; "pallet"%string; "Event"%string] [("T"%string,None); ("I"%string,None)] (TVariant [(Variant "Delegated"%string [(Field None 0%N (Some "T::AccountId"%string) []); (Field None 0%N (Some "T::AccountId"%string) [])] 0%N ["An account has delegated their vote to another account. \[who, target\]"%string]); (Variant "Undelegated"%string [(Field None 0%N (Some "T::AccountId"%string) [])] 1%N ["An \[account\] has cancelled a previous delegation operation."%string])]) ["
			The [event](https://docs.substrate.io/main-docs/build/events-errors/) emitted
			by this pallet.
			"%string]).
Definition md_t76 : ty := (Ty ["pallet_referenda"%string; "pallet"%string; "Event"%string] [("T"%string,None); ("I"%string,None)] (TVariant [(Variant "Submitted"%string [(Field (Some "index"%string) 4%N (Some "ReferendumIndex"%string) ["Index of the referendum."%string]); (Field (Some "track"%string) 77%N (Some "TrackIdOf<T, I>"%string) ["The track (and by extension proposal dispatch origin) of this referendum."%string]); (Field (Some "proposal"%string) 78%N (Some "BoundedCallOf<T, I>"%string) ["The proposal for the referendum."%string])] 0%N ["A referendum has been submitted."%string]); (Variant "DecisionDepositPlaced"%string [(Field (Some "index"%string) 4%N (Some "ReferendumIndex"%string) ["Index of the referendum."%string]); (Field (Some "who"%string) 0%N (Some "T::AccountId"%string) ["The account who placed the deposit."%string]); (Field (Some "amount"%string) 6%N (Some "BalanceOf<T, I>"%string) ["The amount placed by the account."%string])] 1%N ["The decision deposit has been placed."%string]); (Variant "DecisionDepositRefunded"%string [(Field (Some "index"%string) 4%N (Some "ReferendumIndex"%string) ["Index of the referendum."%string]); (Field (Some "who"%string) 0%N (Some "T::AccountId"%string) ["The account who placed the deposit."%string]); (Field (Some "amount"%string) 6%N (Some "BalanceOf<T, I>"%string) ["The amount placed by the account."%string])] 2%N ["The decision deposit has been refunded."%string]); (Variant "DepositSlashed"%string [(Field (Some "who"%string) 0%N (Some "T::AccountId"%string) ["The account who placed the deposit."%string]); (Field (Some "amount"%string) 6%N (Some "BalanceOf<T, I>"%string) ["The amount placed by the account."%string])] 3%N ["A deposit has been slashaed."%string]); (Variant "DecisionStarted"%string [(Field (Some "index"%string) 4%N (Some "ReferendumIndex"%string) ["Index of the referendum."%string]); (Field (Some "track"%string) 77%N (Some "TrackIdOf<T, I>"%string) ["The track (and by extension proposal dispatch origin) of this referendum."%string]); (Field (Some "proposal"%string) 78%N (Some "BoundedCallOf<T, I>"%string) ["The proposal for the referendum."%string]); (Field (Some "tally"%string) 440%N (Some "T::Tally"%string) ["The current tally of votes in this referendum."%string])] 4%N ["A referendum has moved into the deciding phase."%string]); (Variant "ConfirmStarted"%string [(Field (Some "index"%string) 4%N (Some "ReferendumIndex"%string) ["Index of the referendum."%string])] 5%N []); (Variant "ConfirmAborted"%string [(Field (Some "index"%string) 4%N (Some "ReferendumIndex"%string) ["Index of the referendum."%string])] 6%N []); (Variant "Confirmed"%string [(Field (Some "index"%string) 4%N (Some "ReferendumIndex"%string) ["Index of the referendum."%string]); (Field (Some "tally"%string) 440%N (Some "T::Tally"%string) ["The final tally of votes in this referendum."%string])] 7%N ["A referendum has ended its confirmation phase and is ready for approval."%string]); (Variant "Approved"%string [(Field (Some "index"%string) 4%N (Some "ReferendumIndex"%string) ["Index of the referendum."%string])] 8%N ["A referendum has been approved and its proposal has been scheduled."%string]); (Variant "Rejected"%string [(Field (Some "index"%string) 4%N (Some "ReferendumIndex"%string) ["Index of the referendum."%string]); (Field (Some "tally"%string) 440%N (Some "T::Tally"%string) ["The final tally of votes in this referendum."%string])] 9%N ["A proposal has been rejected by referendum."%string]); (Variant "TimedOut"%string [(Field (Some "index"%string) 4%N (Some "ReferendumIndex"%string) ["Index of the referendum."%string]); (Field (Some "tally"%string) 440%N (Some "T::Tally"%string) ["The final tally of votes in this referendum."%string])] 10%N ["A referendum has been timed out without being decided."%string]); (Variant "Cancelled"%string [(Field (Some "index"%string) 4%N (Some "ReferendumIndex"%string) ["Index of the referendum."%string]); (Field (Some "tally"%string) 440%N (Some "T::Tally"%string) ["The final tally of votes in this referendum."%string])] 11%N ["A referendum has been cancelled."%string]); (Variant "Killed"%string [(Field (Some "index"%string) 4%N (Some "ReferendumIndex"%string) ["Index of the referendum."%string]); (Field (Some "tally"%string) 440%N (Some "T::Tally"%string) ["The final tally of votes in this referendum."%string])] 12%N ["A referendum has been killed."%string]); (Variant "SubmissionDepositRefunded"%string [(Field (Some "index"%string) 4%N (Some "ReferendumIndex"%string) ["Index of the referendum."%string]); (Field (Some "who"%string) 0%N (Some "T::AccountId"%string) ["The account who placed the deposit."%string]); (Field (Some "amount"%string) 6%N (Some "BalanceOf<T, I>"%string) ["The amount placed by the account."%string])] 13%N ["The submission deposit has been refunded."%string]); (Variant "MetadataSet"%string [(Field (Some "index"%string) 4%N (Some "ReferendumIndex"%string) ["Index of the referendum."%string]); (Field (Some "hash"%string) 12%N (Some "PreimageHash"%string) ["Preimage hash."%string])] 14%N ["Metadata for a referendum has been set."%string]); (Variant "MetadataCleared"%string [(Field (Some "index"%string) 4%N (Some "ReferendumIndex"%string) ["Index of the referendum."%string]); (Field (Some "hash"%string) 12%N (Some "PreimageHash"%string) ["Preimage hash."%string])] 15%N ["Metadata for a referendum has been cleared."%string])]) ["
			The [event](https://docs.substrate.io/main-docs/build/events-errors/) emitted
			by this pallet.
			"%string]).
Definition md_t77 : ty := (Ty [] [] (TPrimitive (PrU U16)) []).
Definition md_t78 : ty := (Ty ["frame_support"%string; "traits"%string; "preimages"%string; "Bounded"%string] [("T"%string,(Some 79%N))] (TVariant [(Variant "Legacy"%string [(Field (Some "hash"%string) 12%N (Some "Hash"%string) [])] 0%N []); (Variant "Inline"%string [(Field None 439%N (Some "BoundedInline"%string) [])] 1%N []); (Variant "Lookup"%string [(Field (Some "hash"%string) 12%N (Some "Hash"%string) []); (Field (Some "len"%string) 4%N (Some "u32"%string) [])] 2%N [])]) []).
Definition md_t79 : ty := (Ty ["polkadot_runtime"%string; "RuntimeCall"%string] [] (TVariant [(Variant "System"%string [(Field None 80%N (Some "self::sp_api_hidden_includes_construct_runtime::hidden_include::dispatch
::CallableCallFor<System, Runtime>"%string) [])] 0%N []); (Variant "Scheduler"%string [(Field None 84%N (Some "self::sp_api_hidden_includes_construct_runtime::hidden_include::dispatch
::CallableCallFor<Scheduler, Runtime>"%string) [])] 1%N []); (Variant "Preimage"%string [(Field None 86%N (Some "self::sp_api_hidden_includes_construct_runtime::hidden_include::dispatch
::CallableCallFor<Preimage, Runtime>"%string) [])] 10%N []); (Variant "Babe"%string [(Field None 87%N (Some "self::sp_api_hidden_includes_construct_runtime::hidden_include::dispatch
::CallableCallFor<Babe, Runtime>"%string) [])] 2%N []); (Variant "Timestamp"%string [(Field None 98%N (Some "self::sp_api_hidden_includes_construct_runtime::hidden_include::dispatch
::CallableCallFor<Timestamp, Runtime>"%string) [])] 3%N []); (Variant "Indices"%string [(Field None 99%N (Some "self::sp_api_hidden_includes_construct_runtime::hidden_include::dispatch
::CallableCallFor<Indices, Runtime>"%string) [])] 4%N []); (Variant "Balances"%string [(Field None 103%N (Some "self::sp_api_hidden_includes_construct_runtime::hidden_include::dispatch
::CallableCallFor<Balances, Runtime>"%string) [])] 5%N []); (Variant "Staking"%string [(Field None 105%N (Some "self::sp_api_hidden_includes_construct_runtime::hidden_include::dispatch
::CallableCallFor<Staking, Runtime>"%string) [])] 7%N []); (Variant "Session"%string [(Field None 114%N (Some "self::sp_api_hidden_includes_construct_runtime::hidden_include::dispatch
::CallableCallFor<Session, Runtime>"%string) [])] 9%N []); (Variant "Grandpa"%string [(Field None 119%N (Some "self::sp_api_hidden_includes_construct_runtime::hidden_include::dispatch
::CallableCallFor<Grandpa, Runtime>"%string) [])] 11%N []); (Variant "ImOnline"%string [(Field None 131%N (Some "self::sp_api_hidden_includes_construct_runtime::hidden_include::dispatch
::CallableCallFor<ImOnline, Runtime>"%string) [])] 12%N []); (Variant "Democracy"%string [(Field None 139%N (Some "self::sp_api_hidden_includes_construct_runtime::hidden_include::dispatch
::CallableCallFor<Democracy, Runtime>"%string) [])] 14%N []); (Variant "Council"%string [(Field None 143%N (Some "self::sp_api_hidden_includes_construct_runtime::hidden_include::dispatch
::CallableCallFor<Council, Runtime>"%string) [])] 15%N []); (Variant "TechnicalCommittee"%string [(Field None 145%N (Some "self::sp_api_hidden_includes_construct_runtime::hidden_include::dispatch
::CallableCallFor<TechnicalCommittee, Runtime>"%string) [])] 16%N []); (Variant "PhragmenElection"%string [(Field None 146%N (Some "self::sp_api_hidden_includes_construct_runtime::hidden_include::dispatch
::CallableCallFor<PhragmenElection, Runtime>"%string) [])] 17%N []); (Variant "TechnicalMembership"%string [(Field None 148%N (Some "self::sp_api_hidden_includes_construct_runtime::hidden_include::dispatch
::CallableCallFor<TechnicalMembership, Runtime>"%string) [])] 18%N []); (Variant "Treasury"%string [(Field None 149%N (Some "self::sp_api_hidden_includes_construct_runtime::hidden_include::dispatch
::CallableCallFor<Treasury, Runtime>"%string) [])] 19%N []); (Variant "ConvictionVoting"%string [(Field None 150%N (Some "self::sp_api_hidden_includes_construct_runtime::hidden_include::dispatch
::CallableCallFor<ConvictionVoting, Runtime>"%string) [])] 20%N []); (Variant "Referenda"%string [(Field None 155%N (Some "self::sp_api_hidden_includes_construct_runtime::hidden_include::dispatch
::CallableCallFor<Referenda, Runtime>"%string) [])] 21%N []); (Variant "Whitelist"%string [(Field None 173%N (Some "self::sp_api_hidden_includes_construct_runtime::hidden_include::dispatch
::CallableCallFor<Whitelist, Runtime>"%string) [])] 23%N []); (Variant "Claims"%string [(Field None 174%N (Some "self::sp_api_hidden_includes_construct_runtime::hidden_include::dispatch
::CallableCallFor<Claims, Runtime>"%string) [])] 24%N []); (Variant "Vesting"%string [(Field None 182%N (Some "self::sp_api_hidden_includes_construct_runtime::hidden_include::dispatch
::CallableCallFor<Vesting, Runtime>"%string) [])] 25%N []); (Variant "Utility"%string [(Field None 184%N (Some "self::sp_api_hidden_includes_construct_runtime::hidden_include::dispatch
::CallableCallFor<Utility, Runtime>"%string) [])] 26%N []); (Variant "Identity"%string [(Field None 186%N (Some "self::sp_api_hidden_includes_construct_runtime::hidden_include::dispatch
::CallableCallFor<Identity, Runtime>"%string) [])] 28%N []); (Variant "Proxy"%string [(Field None 227%N (Some "self::sp_api_hidden_includes_construct_runtime::hidden_include::dispatch
::CallableCallFor<Proxy, Runtime>"%string) [])] 29%N []); (Variant "Multisig"%string [(Field None 230%N (Some "self::sp_api_hidden_includes_construct_runtime::hidden_include::dispatch
::CallableCallFor<Multisig, Runtime>"%string) [])] 30%N []); (Variant "Bounties"%string [(Field None 233%N (Some "self::sp_api_hidden_includes_construct_runtime::hidden_include::dispatch
::CallableCallFor<Bounties, Runtime>"%string) [])] 34%N []); (Variant "ChildBounties"%string [(Field None 234%N (Some "self::sp_api_hidden_includes_construct_runtime::hidden_include::dispatch
::CallableCallFor<ChildBounties, Runtime>"%string) [])] 38%N []); (Variant "Tips"%string [(Field None 235%N (Some "self::sp_api_hidden_includes_construct_runtime::hidden_include::dispatch
::CallableCallFor<Tips, Runtime>"%string) [])] 35%N []); (Variant "ElectionProviderMultiPhase"%string [(Field None 236%N (Some "self::sp_api_hidden_includes_construct_runtime::hidden_include::dispatch
::CallableCallFor<ElectionProviderMultiPhase, Runtime>"%string) [])] 36%N []); (Variant "VoterList"%string [(Field None 295%N (Some "self::sp_api_hidden_includes_construct_runtime::hidden_include::dispatch
::CallableCallFor<VoterList, Runtime>"%string) [])] 37%N []); (Variant "NominationPools"%string [(Field None 296%N (Some "self::sp_api_hidden_includes_construct_runtime::hidden_include::dispatch
::CallableCallFor<NominationPools, Runtime>"%string) [])] 39%N []); (Variant "FastUnstake"%string [(Field None 307%N (Some "self::sp_api_hidden_includes_construct_runtime::hidden_include::dispatch
::CallableCallFor<FastUnstake, Runtime>"%string) [])] 40%N []); (Variant "Configuration"%string [(Field None 308%N (Some "self::sp_api_hidden_includes_construct_runtime::hidden_include::dispatch
::CallableCallFor<Configuration, Runtime>"%string) [])] 51%N []); (Variant "ParasShared"%string [(Field None 315%N (Some "self::sp_api_hidden_includes_construct_runtime::hidden_include::dispatch
::CallableCallFor<ParasShared, Runtime>"%string) [])] 52%N []); (Variant "ParaInclusion"%string [(Field None 316%N (Some "self::sp_api_hidden_includes_construct_runtime::hidden_include::dispatch
::CallableCallFor<ParaInclusion, Runtime>"%string) [])] 53%N []); (Variant "ParaInherent"%string [(Field None 317%N (Some "self::sp_api_hidden_includes_construct_runtime::hidden_include::dispatch
::CallableCallFor<ParaInherent, Runtime>"%string) [])] 54%N []); (Variant "Paras"%string [(Field None 351%N (Some "self::sp_api_hidden_includes_construct_runtime::hidden_include::dispatch
::CallableCallFor<Paras, Runtime>"%string) [])] 56%N []); (Variant "Initializer"%string [(Field None 353%N (Some "self::sp_api_hidden_includes_construct_runtime::hidden_include::dispatch
::CallableCallFor<Initializer, Runtime>"%string) [])] 57%N []); (Variant "Hrmp"%string [(Field None 354%N (Some "self::sp_api_hidden_includes_construct_runtime::hidden_include::dispatch
::CallableCallFor<Hrmp, Runtime>"%string) [])] 60%N []); (Variant "ParasDisputes"%string [(Field None 356%N (Some "self::sp_api_hidden_includes_construct_runtime::hidden_include::dispatch
::CallableCallFor<ParasDisputes, Runtime>"%string) [])] 62%N []); (Variant "ParasSlashing"%string [(Field None 357%N (Some "self::sp_api_hidden_includes_construct_runtime::hidden_include::dispatch
::CallableCallFor<ParasSlashing, Runtime>"%string) [])] 63%N []); (Variant "Registrar"%string [(Field None 361%N (Some "self::sp_api_hidden_includes_construct_runtime::hidden_include::dispatch
::CallableCallFor<Registrar, Runtime>"%string) [])] 70%N []); (Variant "Slots"%string [(Field None 362%N (Some "self::sp_api_hidden_includes_construct_runtime::hidden_include::dispatch
::CallableCallFor<Slots, Runtime>"%string) [])] 71%N []); (Variant "Auctions"%string [(Field None 363%N (Some "self::sp_api_hidden_includes_construct_runtime::hidden_include::dispatch
::CallableCallFor<Auctions, Runtime>"%string) [])] 72%N []); (Variant "Crowdloan"%string [(Field None 365%N (Some "self::sp_api_hidden_includes_construct_runtime::hidden_include::dispatch
::CallableCallFor<Crowdloan, Runtime>"%string) [])] 73%N []); (Variant "XcmPallet"%string [(Field None 373%N (Some "self::sp_api_hidden_includes_construct_runtime::hidden_include::dispatch
::CallableCallFor<XcmPallet, Runtime>"%string) [])] 99%N []); (Variant "MessageQueue"%string [(Field None 436%N (Some "self::sp_api_hidden_includes_construct_runtime::hidden_include::dispatch
::CallableCallFor<MessageQueue, Runtime>"%string) [])] 100%N [])]) []).
Definition md_t80 : ty := (Ty ["frame_system"%string; "pallet"%string; "Call"%string] [("T"%string,None)] (TVariant [(Variant "remark"%string [(Field (Some "remark"%string) 13%N (Some "Vec<u8>"%string) [])] 0%N ["Make some on-chain remark."%string; ""%string; "- `O(1)`"%string]); (Variant "set_heap_pages"%string [(Field (Some "pages"%string) 11%N (Some "u64"%string) [])] 1%N ["Set the number of pages in the WebAssembly environment's heap."%string]); (Variant "set_code"%string [(Field (Some "code"%string) 13%N (Some "Vec<u8>"%string) [])] 2%N ["Set the new runtime code."%string]); (Variant "set_code_without_checks"%string [(Field (Some "code"%string) 13%N (Some "Vec<u8>"%string) [])] 3%N ["Set the new runtime code without doing any checks of the given `code`."%string]); (Variant "set_storage"%string [(Field (Some "items"%string) 81%N (Some "Vec<KeyValue>"%string) [])] 4%N ["Set some items of storage."%string]); (Variant "kill_storage"%string [(Field (Some "keys"%string) 83%N (Some "Vec<Key>"%string) [])] 5%N ["Kill some items from storage."%string]); (Variant "kill_prefix"%string [(Field (Some "prefix"%string) 13%N (Some "Key"%string) []); (Field (Some "subkeys"%string) 4%N (Some "u32"%string) [])] 6%N ["Kill all storage items with a key that starts with the given prefix."%string; ""%string; "**NOTE:** We rely on the Root origin to provide us the number of subkeys under"%string; "the prefix we are removing to accurately calculate the weight of this function."%string]); (Variant "remark_with_event"%string [(Field (Some "remark"%string) 13%N (Some "Vec<u8>"%string) [])] 7%N ["Make some on-chain remark and emit event."%string])]) ["Contains one variant per dispatchable that can be called by an extrinsic."%string]).
Definition md_t81 : ty := (Ty [] [] (TSequence 82%N) []).
Definition md_t82 : ty := (Ty [] [] (TTuple [13%N; 13%N]) []).
Definition md_t83 : ty := (Ty [] [] (TSequence 13%N) []).
Definition md_t84 : ty := (Ty ["pallet_scheduler"%string; "pallet"%string; "Call"%string] [("T"%string,None)] (TVariant [(Variant "schedule"%string [(Field (Some "when"%string) 4%N (Some "T::BlockNumber"%string) []); (Field (Some "maybe_periodic"%string) 85%N (Some "Option<schedule::Period<T::BlockNumber>>"%string) []); (Field (Some "priority"%string) 2%N (Some "schedule::Priority"%string) []); (Field (Some "call"%string) 79%N (Some "Box<<T as Config>::RuntimeCall>"%string) [])] 0%N ["Anonymously schedule a task."%string]); (Variant "cancel"%string [(Field (Some "when"%string) 4%N (Some "T::BlockNumber"%string) []); (Field (Some "index"%string) 4%N (Some "u32"%string) [])] 1%N ["Cancel an anonymously scheduled task."%string]); (Variant "schedule_named"%string [(Field (Some "id"%string) 1%N (Some "TaskName"%string) []); (Field (Some "when"%string) 4%N (Some "T::BlockNumber"%string) []); (Field (Some "maybe_periodic"%string) 85%N (Some "Option<schedule::Period<T::BlockNumber>>"%string) []); (Field (Some "priority"%string) 2%N (Some "schedule::Priority"%string) []); (Field (Some "call"%string) 79%N (Some "Box<<T as Config>::RuntimeCall>"%string) [])] 2%N ["Schedule a named task."%string]); (Variant "cancel_named"%string [(Field (Some "id"%string) 1%N (Some "TaskName"%string) [])] 3%N ["Cancel a named scheduled task."%string]); (Variant "schedule_after"%string [(Field (Some "after"%string) 4%N (Some "T::BlockNumber"%string) []); (Field (Some "maybe_periodic"%string) 85%N (Some "Option<schedule::Period<T::BlockNumber>>"%string) []); (Field (Some "priority"%string) 2%N (Some "schedule::Priority"%string) []); (Field (Some "call"%string) 79%N (Some "Box<<T as Config>::RuntimeCall>"%string) [])] 4%N ["Anonymously schedule a task after a delay."%string]); (Variant "schedule_named_after"%string [(Field (Some "id"%string) 1%N (Some "TaskName"%string) []); (Field (Some "after"%string) 4%N (Some "T::BlockNumber"%string) []); (Field (Some "maybe_periodic"%string) 85%N (Some "Option<schedule::Period<T::BlockNumber>>"%string) []); (Field (Some "priority"%string) 2%N (Some "schedule::Priority"%string) []); (Field (Some "call"%string) 79%N (Some "Box<<T as Config>::RuntimeCall>"%string) [])] 5%N ["Schedule a named task after a delay."%string])]) ["Contains one variant per dispatchable that can be called by an extrinsic."%string]).
Definition md_t85 : ty := (Ty ["Option"%string] [("T"%string,(Some 31%N))] (TVariant [(Variant "None"%string [] 0%N []); (Variant "Some"%string [(Field None 31%N None [])] 1%N [])]) []).
Definition md_t86 : ty := (Ty ["pallet_preimage"%string; "pallet"%string; "Call"%string] [("T"%string,None)] (TVariant [(Variant "note_preimage"%string [(Field (Some "bytes"%string) 13%N (Some "Vec<u8>"%string) [])] 0%N ["Register a preimage on-chain."%string; ""%string; "If the preimage was previously requested, no fees or deposits are taken for providing"%string; "the preimage. Otherwise, a deposit is taken proportional to the size of the preimage."%string]); (Variant "unnote_preimage"%string [(Field (Some "hash"%string) 12%N (Some "T::Hash"%string) [])] 1%N ["Clear an unrequested preimage from the runtime storage."%string; ""%string; "If `len` is provided, then it will be a much cheaper operation."%string; ""%string; "- `hash`: The hash of the preimage to be removed from the store."%string; "- `len`: The length of the preimage of `hash`."%string]); (Variant "request_preimage"%string [(Field (Some "hash"%string) 12%N (Some "T::Hash"%string) [])] 2%N ["Request a preimage be uploaded to the chain without paying any fees or deposits."%string; ""%string; "If the preimage requests has already been provided on-chain, we unreserve any deposit"%string; "a user may have paid, and take the control of the preimage out of their hands."%string]); (Variant "unrequest_preimage"%string [(Field (Some "hash"%string) 12%N (Some "T::Hash"%string) [])] 3%N ["Clear a previously made request for a preimage."%string; ""%string; "NOTE: THIS MUST NOT BE CALLED ON `hash` MORE TIMES THAN `request_preimage`."%string])]) ["Contains one variant per dispatchable that can be called by an extrinsic."%string]).
Definition md_t87 : ty := (Ty ["pallet_babe"%string; "pallet"%string; "Call"%string] [("T"%string,None)] (TVariant [(Variant "report_equivocation"%string [(Field (Some "equivocation_proof"%string) 88%N (Some "Box<EquivocationProof<T::Header>>"%string) []); (Field (Some "key_owner_proof"%string) 94%N (Some "T::KeyOwnerProof"%string) [])] 0%N ["Report authority equivocation/misbehavior. This method will verify"%string; "the equivocation proof and validate the given key ownership proof"%string; "against the extracted offender. If both are valid, the offence will"%string; "be reported."%string]); (Variant "report_equivocation_unsigned"%string [(Field (Some "equivocation_proof"%string) 88%N (Some "Box<EquivocationProof<T::Header>>"%string) []); (Field (Some "key_owner_proof"%string) 94%N (Some "T::KeyOwnerProof"%string) [])] 1%N ["Report authority equivocation/misbehavior. This method will verify"%string; "the equivocation proof and validate the given key ownership proof"%string; "against the extracted offender. If both are valid, the offence will"%string; "be reported."%string; "This extrinsic must be called unsigned and it is expected that only"%string; "block authors will call it (validated in `ValidateUnsigned`), as such"%string; "if the block author is defined it will be defined as the equivocation"%string; "reporter."%string]); (Variant "plan_config_change"%string [(Field (Some "config"%string) 95%N (Some "NextConfigDescriptor"%string) [])] 2%N ["Plan an epoch config change. The epoch config change is recorded and will be enacted on"%string; "the next call to `enact_epoch_change`. The config will be activated one epoch after."%string; "Multiple calls to this method will replace any existing planned config change that had"%string; "not been enacted yet."%string])]) ["Contains one variant per dispatchable that can be called by an extrinsic."%string]).
Definition md_t88 : ty := (Ty ["sp_consensus_slots"%string; "EquivocationProof"%string] [("Header"%string,(Some 89%N)); ("Id"%string,(Some 92%N))] (TComposite [(Field (Some "offender"%string) 92%N (Some "Id"%string) []); (Field (Some "slot"%string) 93%N (Some "Slot"%string) []); (Field (Some "first_header"%string) 89%N (Some "Header"%string) []); (Field (Some "second_header"%string) 89%N (Some "Header"%string) [])]) []).
Definition md_t89 : ty := (Ty ["sp_runtime"%string; "generic"%string; "header"%string; "Header"%string] [("Number"%string,(Some 4%N)); ("Hash"%string,(Some 90%N))] (TComposite [(Field (Some "parent_hash"%string) 12%N (Some "Hash::Output"%string) []); (Field (Some "number"%string) 91%N (Some "Number"%string) []); (Field (Some "state_root"%string) 12%N (Some "Hash::Output"%string) []); (Field (Some "extrinsics_root"%string) 12%N (Some "Hash::Output"%string) []); (Field (Some "digest"%string) 14%N (Some "Digest"%string) [])]) []).
Definition md_t90 : ty := (Ty ["sp_runtime"%string; "traits"%string; "BlakeTwo256"%string] [] (TComposite []) []).
Definition md_t91 : ty := (Ty [] [] (TCompact 4%N) []).
Definition md_t92 : ty := (Ty ["sp_consensus_babe"%string; "app"%string; "Public"%string] [] (TComposite [(Field None 56%N (Some "sr25519::Public"%string) [])]) []).
Definition md_t93 : ty := (Ty ["sp_consensus_slots"%string; "Slot"%string] [] (TComposite [(Field None 11%N (Some "u64"%string) [])]) []).
Definition md_t94 : ty := (Ty ["sp_session"%string; "MembershipProof"%string] [] (TComposite [(Field (Some "session"%string) 4%N (Some "SessionIndex"%string) []); (Field (Some "trie_nodes"%string) 83%N (Some "Vec<Vec<u8>>"%string) []); (Field (Some "validator_count"%string) 4%N (Some "ValidatorCount"%string) [])]) []).
Definition md_t95 : ty := (Ty ["sp_consensus_babe"%string; "digests"%string; "NextConfigDescriptor"%string] [] (TVariant [(Variant "V1"%string [(Field (Some "c"%string) 96%N (Some "(u64, u64)"%string) []); (Field (Some "allowed_slots"%string) 97%N (Some "AllowedSlots"%string) [])] 1%N [])]) []).
Definition md_t96 : ty := (Ty [] [] (TTuple [11%N; 11%N]) []).
Definition md_t97 : ty := (Ty ["sp_consensus_babe"%string; "AllowedSlots"%string] [] (TVariant [(Variant "PrimarySlots"%string [] 0%N []); (Variant "PrimaryAndSecondaryPlainSlots"%string [] 1%N []); (Variant "PrimaryAndSecondaryVRFSlots"%string [] 2%N [])]) []).
Definition md_t98 : ty := (Ty ["pallet_timestamp"%string; "pallet"%string; "Call"%string] [("T"%string,None)] (TVariant [(Variant "set"%string [(Field (Some "now"%string) 10%N (Some "T::Moment"%string) [])] 0%N ["Set the current time."%string; ""%string; "This call should be invoked exactly once per block. It will panic at the finalization"%string; "phase, if this call hasn't been invoked by that time."%string; ""%string; "The timestamp should be greater than the previous one by the amount specified by"%string; "`MinimumPeriod`."%string; ""%string; "The dispatch origin for this call must be `Inherent`."%string; ""%string; "## Complexity"%string; "- `O(1)` (Note that implementations of `OnTimestampSet` must also be `O(1)`)"%string; "- 1 storage read and 1 storage mutation (codec `O(1)`). (because of `DidUpdate::take` in"%string; "  `on_finalize`)"%string; "- 1 event handler `on_timestamp_set`. Must be `O(1)`."%string])]) ["Contains one variant per dispatchable that can be called by an extrinsic."%string]).
Definition md_t99 : ty := (Ty ["pallet_indices"%string; "pallet"%string; "Call"%string] [("T"%string,None)] (TVariant [(Variant "claim"%string [(Field (Some "index"%string) 4%N (Some "T::AccountIndex"%string) [])] 0%N ["Assign an previously unassigned index."%string; ""%string; "Payment: `Deposit` is reserved from the sender account."%string; ""%string; "The dispatch origin for this call must be _Signed_."%string; ""%string; "- `index`: the index to be claimed. This must not be in use."%string; ""%string; "Emits `IndexAssigned` if successful."%string; ""%string; "## Complexity"%string; "- `O(1)`."%string]); (Variant "transfer"%string [(Field (Some "new"%string) 100%N (Some "AccountIdLookupOf<T>"%string) []); (Field (Some "index"%string) 4%N (Some "T::AccountIndex"%string) [])] 1%N ["Assign an index already owned by the sender to another account. The balance reservation"%string; "is effectively transferred to the new account."%string; ""%string; "The dispatch origin for this call must be _Signed_."%string; ""%string; "- `index`: the index to be re-assigned. This must be owned by the sender."%string; "- `new`: the new owner of the index. This function is a no-op if it is equal to sender."%string; ""%string; "Emits `IndexAssigned` if successful."%string; ""%string; "## Complexity"%string; "- `O(1)`."%string]); (Variant "free"%string [(Field (Some "index"%string) 4%N (Some "T::AccountIndex"%string) [])] 2%N ["Free up an index owned by the sender."%string; ""%string; "Payment: Any previous deposit placed for the index is unreserved in the sender account."%string; ""%string; "The dispatch origin for this call must be _Signed_ and the sender must own the index."%string; ""%string; "- `index`: the index to be freed. This must be owned by the sender."%string; ""%string; "Emits `IndexFreed` if successful."%string; ""%string; "## Complexity"%string; "- `O(1)`."%string]); (Variant "force_transfer"%string [(Field (Some "new"%string) 100%N (Some "AccountIdLookupOf<T>"%string) []); (Field (Some "index"%string) 4%N (Some "T::AccountIndex"%string) []); (Field (Some "freeze"%string) 44%N (Some "bool"%string) [])] 3%N ["Force an index to an account. This doesn't require a deposit. If the index is already"%string; "held, then any deposit is reimbursed to its current owner."%string; ""%string; "The dispatch origin for this call must be _Root_."%string; ""%string; "- `index`: the index to be (re-)assigned."%string; "- `new`: the new owner of the index. This function is a no-op if it is equal to sender."%string; "- `freeze`: if set to `true`, will freeze the index so it cannot be transferred."%string; ""%string; "Emits `IndexAssigned` if successful."%string; ""%string; "## Complexity"%string; "- `O(1)`."%string]); (Variant "freeze"%string [(Field (Some "index"%string) 4%N (Some "T::AccountIndex"%string) [])] 4%N ["Freeze an index so it will always point to the sender account. This consumes the"%string; "deposit."%string; ""%string; "The dispatch origin for this call must be _Signed_ and the signing account must have a"%string; "non-frozen account `index`."%string; ""%string; "- `index`: the index to be frozen in place."%string; ""%string; "Emits `IndexFrozen` if successful."%string; ""%string; "## Complexity"%string; "- `O(1)`."%string])]) ["Contains one variant per dispatchable that can be called by an extrinsic."%string]).
Definition md_t100 : ty := (Ty ["sp_runtime"%string; "multiaddress"%string; "MultiAddress"%string] [("AccountId"%string,(Some 0%N)); ("AccountIndex"%string,(Some 34%N))] (TVariant [(Variant "Id"%string [(Field None 0%N (Some "AccountId"%string) [])] 0%N []); (Variant "Index"%string [(Field None 101%N (Some "AccountIndex"%string) [])] 1%N []); (Variant "Raw"%string [(Field None 13%N (Some "Vec<u8>"%string) [])] 2%N []); (Variant "Address32"%string [(Field None 1%N (Some "[u8; 32]"%string) [])] 3%N []); (Variant "Address20"%string [(Field None 102%N (Some "[u8; 20]"%string) [])] 4%N [])]) []).
Definition md_t101 : ty := (Ty [] [] (TCompact 34%N) []).
Definition md_t102 : ty := (Ty [] [] (TArray 20%N 2%N) []).
Definition md_t103 : ty := (Ty ["pallet_balances"%string; "pallet"%string; "Call"%string] [("T"%string,None); ("I"%string,None)] (TVariant [(Variant "transfer_allow_death"%string [(Field (Some "dest"%string) 100%N (Some "AccountIdLookupOf<T>"%string) []); (Field (Some "value"%string) 60%N (Some "T::Balance"%string) [])] 0%N ["Transfer some liquid free balance to another account."%string; ""%string; "`transfer_allow_death` will set the `FreeBalance` of the sender and receiver."%string; "If the sender's account is below the existential deposit as a result"%string; "of the transfer, the account will be reaped."%string; ""%string; "The dispatch origin for this call must be `Signed` by the transactor."%string]); (Variant "set_balance_deprecated"%string [(Field (Some "who"%string) 100%N (Some "AccountIdLookupOf<T>"%string) []); (Field (Some "new_free"%string) 60%N (Some "T::Balance"%string) []); (Field (Some "old_reserved"%string) 60%N (Some "T::Balance"%string) [])] 1%N ["Set the regular balance of a given account; it also takes a reserved balance but this"%string; "must be the same as the account's current reserved balance."%string; ""%string; "The dispatch origin for this call is `root`."%string; ""%string; "WARNING: This call is DEPRECATED! Use `force_set_balance` instead."%string]); (Variant "force_transfer"%string [(Field (Some "source"%string) 100%N (Some "AccountIdLookupOf<T>"%string) []); (Field (Some "dest"%string) 100%N (Some "AccountIdLookupOf<T>"%string) []); (Field (Some "value"%string) 60%N (Some "T::Balance"%string) [])] 2%N ["Exactly as `transfer_allow_death`, except the origin must be root and the source account"%string; "may be specified."%string]); (Variant "transfer_keep_alive"%string [(Field (Some "dest"%string) 100%N (Some "AccountIdLookupOf<T>"%string) []); (Field (Some "value"%string) 60%N (Some "T::Balance"%string) [])] 3%N ["Same as the [`transfer_allow_death`] call, but with a check that the transfer will not"%string; "kill the origin account."%string; ""%string; "99% of the time you want [`transfer_allow_death`] instead."%string; ""%string; "[`transfer_allow_death`]: struct.Pallet.html#method.transfer"%string]); (Variant "transfer_all"%string [(Field (Some "dest"%string) 100%N (Some "AccountIdLookupOf<T>"%string) []); (Field (Some "keep_alive"%string) 44%N (Some "bool"%string) [])] 4%N ["Transfer the entire transferable balance from the caller account."%string; ""%string; "NOTE: This function only attempts to transfer _transferable_ balances. This means that"%string; "any locked, reserved, or existential deposits (when `keep_alive` is `true`), will not be"%string; "transferred by this function. To ensure that this function results in a killed account,"%string; "you might need to prepare the account by removing any reference counters, storage"%string; "deposits, etc..."%string; ""%string; "The dispatch origin of this call must be Signed."%string; ""%string; "- `dest`: The recipient of the transfer."%string; "- `keep_alive`: A boolean to determine if the `transfer_all` operation should send all"%string; "  of the funds the account has, causing the sender account to be killed (false), or"%string; "  transfer everything except at least the existential deposit, which will guarantee to"%string; "  keep the sender account alive (true)."%string]); (Variant "force_unreserve"%string [(Field (Some "who"%string) 100%N (Some "AccountIdLookupOf<T>"%string) []); (Field (Some "amount"%string) 6%N (Some "T::Balance"%string) [])] 5%N ["Unreserve some balance from a user by force."%string; ""%string; "Can only be called by ROOT."%string]); (Variant "upgrade_accounts"%string [(Field (Some "who"%string) 104%N (Some "Vec<T::AccountId>"%string) [])] 6%N ["Upgrade a specified account."%string; ""%string; "- `origin`: Must be `Signed`."%string; "- `who`: The account to be upgraded."%string; ""%string; "This will waive the transaction fee if at least all but 10% of the accounts needed to"%string; "be upgraded. (We let some not have to be upgraded just in order to allow for the"%string; "possibililty of churn)."%string]); (Variant "transfer"%string [(Field (Some "dest"%string) 100%N (Some "AccountIdLookupOf<T>"%string) []); (Field (Some "value"%string) 60%N (Some "T::Balance"%string) [])] 7%N ["Alias for `transfer_allow_death`, provided only for name-wise compatibility."%string; ""%string; "WARNING: DEPRECATED! Will be released in approximately 3 months."%string]); (Variant "force_set_balance"%string [(Field (Some "who"%string) 100%N (Some "AccountIdLookupOf<T>"%string) []); (Field (Some "new_free"%string) 60%N (Some "T::Balance"%string) [])] 8%N ["Set the regular balance of a given account."%string; ""%string; "The dispatch origin for this call is `root`."%string])]) ["Contains one variant per dispatchable that can be called by an extrinsic."%string]).
Definition md_t104 : ty := (Ty [] [] (TSequence 0%N) []).
Definition md_t105 : ty := (Ty ["pallet_staking"%string; "pallet"%string; "pallet"%string; "Call"%string] [("T"%string,None)] (TVariant [(Variant "bond"%string [(Field (Some "value"%string) 60%N (Some "BalanceOf<T>"%string) []); (Field (Some "payee"%string) 106%N (Some "RewardDestination<T::AccountId>"%string) [])] 0%N ["Take the origin account as a stash and lock up `value` of its balance. `controller` will"%string; "be the account that controls it."%string; ""%string; "`value` must be more than the `minimum_balance` specified by `T::Currency`."%string; ""%string; "The dispatch origin for this call must be _Signed_ by the stash account."%string; ""%string; "Emits `Bonded`."%string; "## Complexity"%string; "- Independent of the arguments. Moderate complexity."%string; "- O(1)."%string; "- Three extra DB entries."%string; ""%string; "NOTE: Two of the storage writes (`Self::bonded`, `Self::payee`) are _never_ cleaned"%string; "unless the `origin` falls below _existential deposit_ and gets removed as dust."%string]); (Variant "bond_extra"%string [(Field (Some "max_additional"%string) 60%N (Some "BalanceOf<T>"%string) [])] 1%N ["Add some extra amount that have appeared in the stash `free_balance` into the balance up"%string; "for staking."%string; ""%string; "The dispatch origin for this call must be _Signed_ by the stash, not the controller."%string; ""%string; "Use this if there are additional funds in your stash account that you wish to bond."%string; "Unlike [`bond`](Self::bond) or [`unbond`](Self::unbond) this function does not impose"%string; "any limitation on the amount that can be added."%string; ""%string; "Emits `Bonded`."%string; ""%string; "## Complexity"%string; "- Independent of the arguments. Insignificant complexity."%string; "- O(1)."%string]); (Variant "unbond"%string [(Field (Some "value"%string) 60%N (Some "BalanceOf<T>"%string) [])] 2%N ["Schedule a portion of the stash to be unlocked ready for transfer out after the bond"%string; "period ends. If this leaves an amount actively bonded less than"%string; "T::Currency::minimum_balance(), then it is increased to the full amount."%string; ""%string; "The dispatch origin for this call must be _Signed_ by the controller, not the stash."%string; ""%string; "Once the unlock period is done, you can call `withdraw_unbonded` to actually move"%string; "the funds out of management ready for transfer."%string; ""%string; "No more than a limited number of unlocking chunks (see `MaxUnlockingChunks`)"%string; "can co-exists at the same time. If there are no unlocking chunks slots available"%string; "[`Call::withdraw_unbonded`] is called to remove some of the chunks (if possible)."%string; ""%string; "If a user encounters the `InsufficientBond` error when calling this extrinsic,"%string; "they should call `chill` first in order to free up their bonded funds."%string; ""%string; "Emits `Unbonded`."%string; ""%string; "See also [`Call::withdraw_unbonded`]."%string]); (Variant "withdraw_unbonded"%string [(Field (Some "num_slashing_spans"%string) 4%N (Some "u32"%string) [])] 3%N ["Remove any unlocked chunks from the `unlocking` queue from our management."%string; ""%string; "This essentially frees up that balance to be used by the stash account to do"%string; "whatever it wants."%string; ""%string; "The dispatch origin for this call must be _Signed_ by the controller."%string; ""%string; "Emits `Withdrawn`."%string; ""%string; "See also [`Call::unbond`]."%string; ""%string; "## Complexity"%string; "O(S) where S is the number of slashing spans to remove"%string; "NOTE: Weight annotation is the kill scenario, we refund otherwise."%string]); (Variant "validate"%string [(Field (Some "prefs"%string) 42%N (Some "ValidatorPrefs"%string) [])] 4%N ["Declare the desire to validate for the origin controller."%string; ""%string; "Effects will be felt at the beginning of the next era."%string; ""%string; "The dispatch origin for this call must be _Signed_ by the controller, not the stash."%string]); (Variant "nominate"%string [(Field (Some "targets"%string) 107%N (Some "Vec<AccountIdLookupOf<T>>"%string) [])] 5%N ["Declare the desire to nominate `targets` for the origin controller."%string; ""%string; "Effects will be felt at the beginning of the next era."%string; ""%string; "The dispatch origin for this call must be _Signed_ by the controller, not the stash."%string; ""%string; "## Complexity"%string; "- The transaction's complexity is proportional to the size of `targets` (N)"%string; "which is capped at CompactAssignments::LIMIT (T::MaxNominations)."%string; "- Both the reads and writes follow a similar pattern."%string]); (Variant "chill"%string [] 6%N ["Declare no desire to either validate or nominate."%string; ""%string; "Effects will be felt at the beginning of the next era."%string; ""%string; "The dispatch origin for this call must be _Signed_ by the controller, not the stash."%string; ""%string; "## Complexity"%string; "- Independent of the arguments. Insignificant complexity."%string; "- Contains one read."%string; "- Writes are limited to the `origin` account key."%string]); (Variant "set_payee"%string [(Field (Some "payee"%string) 106%N (Some "RewardDestination<T::AccountId>"%string) [])] 7%N ["(Re-)set the payment target for a controller."%string; ""%string; "Effects will be felt instantly (as soon as this function is completed successfully)."%string; ""%string; "The dispatch origin for this call must be _Signed_ by the controller, not the stash."%string; ""%string; "## Complexity"%string; "- O(1)"%string; "- Independent of the arguments. Insignificant complexity."%string; "- Contains a limited number of reads."%string; "- Writes are limited to the `origin` account key."%string; "---------"%string]); (Variant "set_controller"%string [] 8%N ["(Re-)sets the controller of a stash to the stash itself. This function previously"%string; "accepted a `controller` argument to set the controller to an account other than the"%string; "stash itself. This functionality has now been removed, now only setting the controller"%string; "to the stash, if it is not already."%string; ""%string; "Effects will be felt instantly (as soon as this function is completed successfully)."%string; ""%string; "The dispatch origin for this call must be _Signed_ by the stash, not the controller."%string; ""%string; "## Complexity"%string; "O(1)"%string; "- Independent of the arguments. Insignificant complexity."%string; "- Contains a limited number of reads."%string; "- Writes are limited to the `origin` account key."%string]); (Variant "set_validator_count"%string [(Field (Some "new"%string) 91%N (Some "u32"%string) [])] 9%N ["Sets the ideal number of validators."%string; ""%string; "The dispatch origin must be Root."%string; ""%string; "## Complexity"%string; "O(1)"%string]); (Variant "increase_validator_count"%string [(Field (Some "additional"%string) 91%N (Some "u32"%string) [])] 10%N ["Increments the ideal number of validators upto maximum of"%string; "`ElectionProviderBase::MaxWinners`."%string; ""%string; "The dispatch origin must be Root."%string; ""%string; "## Complexity"%string; "Same as [`Self::set_validator_count`]."%string]); (Variant "scale_validator_count"%string [(Field (Some "factor"%string) 108%N (Some "Percent"%string) [])] 11%N ["Scale up the ideal number of validators by a factor upto maximum of"%string; "`ElectionProviderBase::MaxWinners`."%string; ""%string; "The dispatch origin must be Root."%string; ""%string; "## Complexity"%string; "Same as [`Self::set_validator_count`]."%string]); (Variant "force_no_eras"%string [] 12%N ["Force there to be no new eras indefinitely."%string; ""%string; "The dispatch origin must be Root."%string; ""%string; "# Warning"%string; ""%string; "The election process starts multiple blocks before the end of the era."%string; "Thus the election process may be ongoing when this is called. In this case the"%string; "election will continue until the next era is triggered."%string; ""%string; "## Complexity"%string; "- No arguments."%string; "- Weight: O(1)"%string]); (Variant "force_new_era"%string [] 13%N ["Force there to be a new era at the end of the next session. After this, it will be"%string; "reset to normal (non-forced) behaviour."%string; ""%string; "The dispatch origin must be Root."%string; ""%string; "# Warning"%string; ""%string; "The election process starts multiple blocks before the end of the era."%string; "If this is called just before a new era is triggered, the election process may not"%string; "have enough blocks to get a result."%string; ""%string; "## Complexity"%string; "- No arguments."%string; "- Weight: O(1)"%string]); (Variant "set_invulnerables"%string [(Field (Some "invulnerables"%string) 104%N (Some "Vec<T::AccountId>"%string) [])] 14%N ["Set the validators who cannot be slashed (if any)."%string; ""%string; "The dispatch origin must be Root."%string]); (Variant "force_unstake"%string [(Field (Some "stash"%string) 0%N (Some "T::AccountId"%string) []); (Field (Some "num_slashing_spans"%string) 4%N (Some "u32"%string) [])] 15%N ["Force a current staker to become completely unstaked, immediately."%string; ""%string; "The dispatch origin must be Root."%string]); (Variant "force_new_era_always"%string [] 16%N ["Force there to be a new era at the end of sessions indefinitely."%string; ""%string; "The dispatch origin must be Root."%string; ""%string; "# Warning"%string; ""%string; "The election process starts multiple blocks before the end of the era."%string; "If this is called just before a new era is triggered, the election process may not"%string; "have enough blocks to get a result."%string]); (Variant "cancel_deferred_slash"%string [(Field (Some "era"%string) 4%N (Some "EraIndex"%string) []); (Field (Some "slash_indices"%string) 109%N (Some "Vec<u32>"%string) [])] 17%N ["Cancel enactment of a deferred slash."%string; ""%string; "Can be called by the `T::AdminOrigin`."%string; ""%string; "Parameters: era and indices of the slashes for that era to kill."%string]); (Variant "payout_stakers"%string [(Field (Some "validator_stash"%string) 0%N (Some "T::AccountId"%string) []); (Field (Some "era"%string) 4%N (Some "EraIndex"%string) [])] 18%N ["Pay out all the stakers behind a single validator for a single era."%string; ""%string; "- `validator_stash` is the stash account of the validator. Their nominators, up to"%string; "  `T::MaxNominatorRewardedPerValidator`, will also receive their rewards."%string; "- `era` may be any era between `[current_era - history_depth; current_era]`."%string; ""%string; "The origin of this call must be _Signed_. Any account can call this function, even if"%string; "it is not one of the stakers."%string; ""%string; "## Complexity"%string; "- At most O(MaxNominatorRewardedPerValidator)."%string]); (Variant "rebond"%string [(Field (Some "value"%string) 60%N (Some "BalanceOf<T>"%string) [])] 19%N ["Rebond a portion of the stash scheduled to be unlocked."%string; ""%string; "The dispatch origin must be signed by the controller."%string; ""%string; "## Complexity"%string; "- Time complexity: O(L), where L is unlocking chunks"%string; "- Bounded by `MaxUnlockingChunks`."%string]); (Variant "reap_stash"%string [(Field (Some "stash"%string) 0%N (Some "T::AccountId"%string) []); (Field (Some "num_slashing_spans"%string) 4%N (Some "u32"%string) [])] 20%N ["Remove all data structures concerning a staker/stash once it is at a state where it can"%string; "be considered `dust` in the staking system. The requirements are:"%string; ""%string; "1. the `total_balance` of the stash is below existential deposit."%string; "2. or, the `ledger.total` of the stash is below existential deposit."%string; ""%string; "The former can happen in cases like a slash; the latter when a fully unbonded account"%string; "is still receiving staking rewards in `RewardDestination::Staked`."%string; ""%string; "It can be called by anyone, as long as `stash` meets the above requirements."%string; ""%string; "Refunds the transaction fees upon successful execution."%string]); (Variant "kick"%string [(Field (Some "who"%string) 107%N (Some "Vec<AccountIdLookupOf<T>>"%string) [])] 21%N ["Remove the given nominations from the calling validator."%string; ""%string; "Effects will be felt at the beginning of the next era."%string; ""%string; "The dispatch origin for this call must be _Signed_ by the controller, not the stash."%string; ""%string; "- `who`: A list of nominator stash accounts who are nominating this validator which"%string; "  should no longer be nominating this validator."%string; ""%string; "Note: Making this call only makes sense if you first set the validator preferences to"%string; "block any further nominations."%string]); (Variant "set_staking_configs"%string [(Field (Some "min_nominator_bond"%string) 110%N (Some "ConfigOp<BalanceOf<T>>"%string) []); (Field (Some "min_validator_bond"%string) 110%N (Some "ConfigOp<BalanceOf<T>>"%string) []); (Field (Some "max_nominator_count"%string) 111%N (Some "ConfigOp<u32>"%string) []); (Field (Some "max_validator_count"%string) 111%N (Some "ConfigOp<u32>"%string) []); (Field (Some "chill_threshold"%string) 112%N (Some "ConfigOp<Percent>"%string) []); (Field (Some "min_commission"%string) 113%N (Some "ConfigOp<Perbill>"%string) [])] 22%N ["Update the various staking configurations ."%string; ""%string; "* `min_nominator_bond`: The minimum active bond needed to be a nominator."%string; "* `min_validator_bond`: The minimum active bond needed to be a validator."%string; "* `max_nominator_count`: The max number of users who can be a nominator at once. When"%string; "  set to `None`, no limit is enforced."%string; "* `max_validator_count`: The max number of users who can be a validator at once. When"%string; "  set to `None`, no limit is enforced."%string; "* `chill_threshold`: The ratio of `max_nominator_count` or `max_validator_count` which"%string; "  should be filled in order for the `chill_other` transaction to work."%string; "* `min_commission`: The minimum amount of commission that each validators must maintain."%string; "  This is checked only upon calling `validate`. Existing validators are not affected."%string; ""%string; "RuntimeOrigin must be Root to call this function."%string; ""%string; "NOTE: Existing nominators and validators will not be affected by this update."%string; "to kick people under the new limits, `chill_other` should be called."%string]); (Variant "chill_other"%string [(Field (Some "controller"%string) 0%N (Some "T::AccountId"%string) [])] 23%N ["Declare a `controller` to stop participating as either a validator or nominator."%string; ""%string; "Effects will be felt at the beginning of the next era."%string; ""%string; "The dispatch origin for this call must be _Signed_, but can be called by anyone."%string; ""%string; "If the caller is the same as the controller being targeted, then no further checks are"%string; "enforced, and this function behaves just like `chill`."%string; ""%string; "If the caller is different than the controller being targeted, the following conditions"%string; "must be met:"%string; ""%string; "* `controller` must belong to a nominator who has become non-decodable,"%string; ""%string; "Or:"%string; ""%string; "* A `ChillThreshold` must be set and checked which defines how close to the max"%string; "  nominators or validators we must reach before users can start chilling one-another."%string; "* A `MaxNominatorCount` and `MaxValidatorCount` must be set which is used to determine"%string; "  how close we are to the threshold."%string; "* A `MinNominatorBond` and `MinValidatorBond` must be set and checked, which determines"%string; "  if this is a person that should be chilled because they have not met the threshold"%string; "  bond required."%string; ""%string; "This can be helpful if bond requirements are updated, and we need to remove old users"%string; "who do not satisfy these requirements."%string]); (Variant "force_apply_min_commission"%string [(Field (Some "validator_stash"%string) 0%N (Some "T::AccountId"%string) [])] 24%N ["Force a validator to have at least the minimum commission. This will not affect a"%string; "validator who already has a commission greater than or equal to the minimum. Any account"%string; "can call this."%string]); (Variant "set_min_commission"%string [(Field (Some "new"%string) 41%N (Some "Perbill"%string) [])] 25%N ["Sets the minimum amount of commission that each validators must maintain."%string; ""%string; "This call has lower privilege requirements than `set_staking_config` and can be called"%string; "by the `T::AdminOrigin`. Root can always call this."%string])]) ["Contains one variant per dispatchable that can be called by an extrinsic."%string]).
Definition md_t106 : ty := (Ty ["pallet_staking"%string; "RewardDestination"%string] [("AccountId"%string,(Some 0%N))] (TVariant [(Variant "Staked"%string [] 0%N []); (Variant "Stash"%string [] 1%N []); (Variant "Controller"%string [] 2%N []); (Variant "Account"%string [(Field None 0%N (Some "AccountId"%string) [])] 3%N []); (Variant "None"%string [] 4%N [])]) []).
Definition md_t107 : ty := (Ty [] [] (TSequence 100%N) []).
Definition md_t108 : ty := (Ty ["sp_arithmetic"%string; "per_things"%string; "Percent"%string] [] (TComposite [(Field None 2%N (Some "u8"%string) [])]) []).
Definition md_t109 : ty := (Ty [] [] (TSequence 4%N) []).
Definition md_t110 : ty := (Ty ["pallet_staking"%string; "pallet"%string; "pallet"%string; "ConfigOp"%string] [("T"%string,(Some 6%N))] (TVariant [(Variant "Noop"%string [] 0%N []); (Variant "Set"%string [(Field None 6%N (Some "T"%string) [])] 1%N []); (Variant "Remove"%string [] 2%N [])]) []).
Definition md_t111 : ty := (Ty ["pallet_staking"%string; "pallet"%string; "pallet"%string; "ConfigOp"%string] [("T"%string,(Some 4%N))] (TVariant [(Variant "Noop"%string [] 0%N []); (Variant "Set"%string [(Field None 4%N (Some "T"%string) [])] 1%N []); (Variant "Remove"%string [] 2%N [])]) []).
Definition md_t112 : ty := (Ty ["pallet_staking"%string; "pallet"%string; "pallet"%string; "ConfigOp"%string] [("T"%string,(Some 108%N))] (TVariant [(Variant "Noop"%string [] 0%N []); (Variant "Set"%string [(Field None 108%N (Some "T"%string) [])] 1%N []); (Variant "Remove"%string [] 2%N [])]) []).
Definition md_t113 : ty := (Ty ["pallet_staking"%string; "pallet"%string; "pallet"%string; "ConfigOp"%string] [("T"%string,(Some 41%N))] (TVariant [(Variant "Noop"%string [] 0%N []); (Variant "Set"%string [(Field None 41%N (Some "T"%string) [])] 1%N []); (Variant "Remove"%string [] 2%N [])]) []).
Definition md_t114 : ty := (Ty ["pallet_session"%string; "pallet"%string; "Call"%string] [("T"%string,None)] (TVariant [(Variant "set_keys"%string [(Field (Some "keys"%string) 115%N (Some "T::Keys"%string) []); (Field (Some "proof"%string) 13%N (Some "Vec<u8>"%string) [])] 0%N ["Sets the session key(s) of the function caller to `keys`."%string; "Allows an account to set its session key prior to becoming a validator."%string; "This doesn't take effect until the next session."%string; ""%string; "The dispatch origin of this function must be signed."%string; ""%string; "## Complexity"%string; "- `O(1)`. Actual cost depends on the number of length of `T::Keys::key_ids()` which is"%string; "  fixed."%string]); (Variant "purge_keys"%string [] 1%N ["Removes any session key(s) of the function caller."%string; ""%string; "This doesn't take effect until the next session."%string; ""%string; "The dispatch origin of this function must be Signed and the account must be either be"%string; "convertible to a validator ID using the chain's typical addressing system (this usually"%string; "means being a controller account) or directly convertible into a validator ID (which"%string; "usually means being a stash account)."%string; ""%string; "## Complexity"%string; "- `O(1)` in number of key types. Actual cost depends on the number of length of"%string; "  `T::Keys::key_ids()` which is fixed."%string])]) ["Contains one variant per dispatchable that can be called by an extrinsic."%string]).
Definition md_t115 : ty := (Ty ["polkadot_runtime"%string; "SessionKeys"%string] [] (TComposite [(Field (Some "grandpa"%string) 52%N (Some "<Grandpa as $crate::BoundToRuntimeAppPublic>::Public"%string) []); (Field (Some "babe"%string) 92%N (Some "<Babe as $crate::BoundToRuntimeAppPublic>::Public"%string) []); (Field (Some "im_online"%string) 55%N (Some "<ImOnline as $crate::BoundToRuntimeAppPublic>::Public"%string) []); (Field (Some "para_validator"%string) 116%N (Some "<Initializer as $crate::BoundToRuntimeAppPublic>::Public"%string) []); (Field (Some "para_assignment"%string) 117%N (Some "<ParaSessionInfo as $crate::BoundToRuntimeAppPublic>::Public"%string) []); (Field (Some "authority_discovery"%string) 118%N (Some "<AuthorityDiscovery as $crate::BoundToRuntimeAppPublic>::Public"%string) [])]) []).
Definition md_t116 : ty := (Ty ["polkadot_primitives"%string; "v4"%string; "validator_app"%string; "Public"%string] [] (TComposite [(Field None 56%N (Some "sr25519::Public"%string) [])]) []).
Definition md_t117 : ty := (Ty ["polkadot_primitives"%string; "v4"%string; "assignment_app"%string; "Public"%string] [] (TComposite [(Field None 56%N (Some "sr25519::Public"%string) [])]) []).
Definition md_t118 : ty := (Ty ["sp_authority_discovery"%string; "app"%string; "Public"%string] [] (TComposite [(Field None 56%N (Some "sr25519::Public"%string) [])]) []).
Definition md_t119 : ty := (Ty ["pallet_grandpa"%string; "pallet"%string; "Call"%string] [("T"%string,None)] (TVariant [(Variant "report_equivocation"%string [(Field (Some "equivocation_proof"%string) 120%N (Some "Box<EquivocationProof<T::Hash, T::BlockNumber>>"%string) []); (Field (Some "key_owner_proof"%string) 94%N (Some "T::KeyOwnerProof"%string) [])] 0%N ["Report voter equivocation/misbehavior. This method will verify the"%string; "equivocation proof and validate the given key ownership proof"%string; "against the extracted offender. If both are valid, the offence"%string; "will be reported."%string]); (Variant "report_equivocation_unsigned"%string [(Field (Some "equivocation_proof"%string) 120%N (Some "Box<EquivocationProof<T::Hash, T::BlockNumber>>"%string) []); (Field (Some "key_owner_proof"%string) 94%N (Some "T::KeyOwnerProof"%string) [])] 1%N ["Report voter equivocation/misbehavior. This method will verify the"%string; "equivocation proof and validate the given key ownership proof"%string; "against the extracted offender. If both are valid, the offence"%string; "will be reported."%string; ""%string; "This extrinsic must be called unsigned and it is expected that only"%string; "block authors will call it (validated in `ValidateUnsigned`), as such"%string; "if the block author is defined it will be defined as the equivocation"%string; "reporter."%string]); (Variant "note_stalled"%string [(Field (Some "delay"%string) 4%N (Some "T::BlockNumber"%string) []); (Field (Some "best_finalized_block_number"%string) 4%N (Some "T::BlockNumber"%string) [])] 2%N ["Note that the current authority set of the GRANDPA finality gadget has stalled."%string; ""%string; "This will trigger a forced authority set change at the beginning of the next session, to"%string; "be enacted `delay` blocks after that. The `delay` should be high enough to safely assume"%string; "that the block signalling the forced change will not be re-orged e.g. 1000 blocks."%string; "The block production rate (which may be slowed down because of finality lagging) should"%string; "be taken into account when choosing the `delay`. The GRANDPA voters based on the new"%string; "authority will start voting on top of `best_finalized_block_number` for new finalized"%string; "blocks. `best_finalized_block_number` should be the highest of the latest finalized"%string; "block of all validators of the new authority set."%string; ""%string; "Only callable by root."%string])]) ["Contains one variant per dispatchable that can be called by an extrinsic."%string]).
Definition md_t120 : ty := (Ty ["sp_consensus_grandpa"%string; "EquivocationProof"%string] [("H"%string,(Some 12%N)); ("N"%string,(Some 4%N))] (TComposite [(Field (Some "set_id"%string) 11%N (Some "SetId"%string) []); (Field (Some "equivocation"%string) 121%N (Some "Equivocation<H, N>"%string) [])]) []).
Definition md_t121 : ty := (Ty ["sp_consensus_grandpa"%string; "Equivocation"%string] [("H"%string,(Some 12%N)); ("N"%string,(Some 4%N))] (TVariant [(Variant "Prevote"%string [(Field None 122%N (Some "grandpa::Equivocation<AuthorityId, grandpa::Prevote<H, N>,
AuthoritySignature>"%string) [])] 0%N []); (Variant "Precommit"%string [(Field None 128%N (Some "grandpa::Equivocation<AuthorityId, grandpa::Precommit<H, N>,
AuthoritySignature>"%string) [])] 1%N [])]) []).
Definition md_t122 : ty := (Ty ["finality_grandpa"%string; "Equivocation"%string] [("Id"%string,(Some 52%N)); ("V"%string,(Some 123%N)); ("S"%string,(Some 124%N))] (TComposite [(Field (Some "round_number"%string) 11%N (Some "u64"%string) []); (Field (Some "identity"%string) 52%N (Some "Id"%string) []); (Field (Some "first"%string) 127%N (Some "(V, S)"%string) []); (Field (Some "second"%string) 127%N (Some "(V, S)"%string) [])]) []).
Definition md_t123 : ty := (Ty ["finality_grandpa"%string; "Prevote"%string] [("H"%string,(Some 12%N)); ("N"%string,(Some 4%N))] (TComposite [(Field (Some "target_hash"%string) 12%N (Some "H"%string) []); (Field (Some "target_number"%string) 4%N (Some "N"%string) [])]) []).
Definition md_t124 : ty := (Ty ["sp_consensus_grandpa"%string; "app"%string; "Signature"%string] [] (TComposite [(Field None 125%N (Some "ed25519::Signature"%string) [])]) []).
Definition md_t125 : ty := (Ty ["sp_core"%string; "ed25519"%string; "Signature"%string] [] (TComposite [(Field None 126%N (Some "[u8; 64]"%string) [])]) []).
Definition md_t126 : ty := (Ty [] [] (TArray 64%N 2%N) []).
Definition md_t127 : ty := (Ty [] [] (TTuple [123%N; 124%N]) []).
Definition md_t128 : ty := (Ty ["finality_grandpa"%string; "Equivocation"%string] [("Id"%string,(Some 52%N)); ("V"%string,(Some 129%N)); ("S"%string,(Some 124%N))] (TComposite [(Field (Some "round_number"%string) 11%N (Some "u64"%string) []); (Field (Some "identity"%string) 52%N (Some "Id"%string) []); (Field (Some "first"%string) 130%N (Some "(V, S)"%string) []); (Field (Some "second"%string) 130%N (Some "(V, S)"%string) [])]) []).
Definition md_t129 : ty := (Ty ["finality_grandpa"%string; "Precommit"%string] [("H"%string,(Some 12%N)); ("N"%string,(Some 4%N))] (TComposite [(Field (Some "target_hash"%string) 12%N (Some "H"%string) []); (Field (Some "target_number"%string) 4%N (Some "N"%string) [])]) []).
Definition md_t130 : ty := (Ty [] [] (TTuple [129%N; 124%N]) []).
Definition md_t131 : ty := (Ty ["pallet_im_online"%string; "pallet"%string; "Call"%string] [("T"%string,None)] (TVariant [(Variant "heartbeat"%string [(Field (Some "heartbeat"%string) 132%N (Some "Heartbeat<T::BlockNumber>"%string) []); (Field (Some "signature"%string) 137%N (Some "<T::AuthorityId as RuntimeAppPublic>::Signature"%string) [])] 0%N ["## Complexity:"%string; "- `O(K + E)` where K is length of `Keys` (heartbeat.validators_len) and E is length of"%string; "  `heartbeat.network_state.external_address`"%string; "  - `O(K)`: decoding of length `K`"%string; "  - `O(E)`: decoding/encoding of length `E`"%string])]) ["Contains one variant per dispatchable that can be called by an extrinsic."%string]).
Definition md_t132 : ty := (Ty ["pallet_im_online"%string; "Heartbeat"%string] [("BlockNumber"%string,(Some 4%N))] (TComposite [(Field (Some "block_number"%string) 4%N (Some "BlockNumber"%string) []); (Field (Some "network_state"%string) 133%N (Some "OpaqueNetworkState"%string) []); (Field (Some "session_index"%string) 4%N (Some "SessionIndex"%string) []); (Field (Some "authority_index"%string) 4%N (Some "AuthIndex"%string) []); (Field (Some "validators_len"%string) 4%N (Some "u32"%string) [])]) []).
Definition md_t133 : ty := (Ty ["sp_core"%string; "offchain"%string; "OpaqueNetworkState"%string] [] (TComposite [(Field (Some "peer_id"%string) 134%N (Some "OpaquePeerId"%string) []); (Field (Some "external_addresses"%string) 135%N (Some "Vec<OpaqueMultiaddr>"%string) [])]) []).
Definition md_t134 : ty := (Ty ["sp_core"%string; "OpaquePeerId"%string] [] (TComposite [(Field None 13%N (Some "Vec<u8>"%string) [])]) []).
Definition md_t135 : ty := (Ty [] [] (TSequence 136%N) []).
Definition md_t136 : ty := (Ty ["sp_core"%string; "offchain"%string; "OpaqueMultiaddr"%string] [] (TComposite [(Field None 13%N (Some "Vec<u8>"%string) [])]) []).
Definition md_t137 : ty := (Ty ["pallet_im_online"%string; "sr25519"%string; "app_sr25519"%string; "Signature"%string] [] (TComposite [(Field None 138%N (Some "sr25519::Signature"%string) [])]) []).
Definition md_t138 : ty := (Ty ["sp_core"%string; "sr25519"%string; "Signature"%string] [] (TComposite [(Field None 126%N (Some "[u8; 64]"%string) [])]) []).
Definition md_t139 : ty := (Ty ["pallet_democracy"%string; "pallet"%string; "Call"%string] [("T"%string,None)] (TVariant [(Variant "propose"%string [(Field (Some "proposal"%string) 78%N (Some "BoundedCallOf<T>"%string) []); (Field (Some "value"%string) 60%N (Some "BalanceOf<T>"%string) [])] 0%N ["Propose a sensitive action to be taken."%string; ""%string; "The dispatch origin of this call must be _Signed_ and the sender must"%string; "have funds to cover the deposit."%string; ""%string; "- `proposal_hash`: The hash of the proposal preimage."%string; "- `value`: The amount of deposit (must be at least `MinimumDeposit`)."%string; ""%string; "Emits `Proposed`."%string]); (Variant "second"%string [(Field (Some "proposal"%string) 91%N (Some "PropIndex"%string) [])] 1%N ["Signals agreement with a particular proposal."%string; ""%string; "The dispatch origin of this call must be _Signed_ and the sender"%string; "must have funds to cover the deposit, equal to the original deposit."%string; ""%string; "- `proposal`: The index of the proposal to second."%string]); (Variant "vote"%string [(Field (Some "ref_index"%string) 91%N (Some "ReferendumIndex"%string) []); (Field (Some "vote"%string) 65%N (Some "AccountVote<BalanceOf<T>>"%string) [])] 2%N ["Vote in a referendum. If `vote.is_aye()`, the vote is to enact the proposal;"%string; "otherwise it is a vote to keep the status quo."%string; ""%string; "The dispatch origin of this call must be _Signed_."%string; ""%string; "- `ref_index`: The index of the referendum to vote for."%string; "- `vote`: The vote configuration."%string]); (Variant "emergency_cancel"%string [(Field (Some "ref_index"%string) 4%N (Some "ReferendumIndex"%string) [])] 3%N ["Schedule an emergency cancellation of a referendum. Cannot happen twice to the same"%string; "referendum."%string; ""%string; "The dispatch origin of this call must be `CancellationOrigin`."%string; ""%string; "-`ref_index`: The index of the referendum to cancel."%string; ""%string; "Weight: `O(1)`."%string]); (Variant "external_propose"%string [(Field (Some "proposal"%string) 78%N (Some "BoundedCallOf<T>"%string) [])] 4%N ["Schedule a referendum to be tabled once it is legal to schedule an external"%string; "referendum."%string; ""%string; "The dispatch origin of this call must be `ExternalOrigin`."%string; ""%string; "- `proposal_hash`: The preimage hash of the proposal."%string]); (Variant "external_propose_majority"%string [(Field (Some "proposal"%string) 78%N (Some "BoundedCallOf<T>"%string) [])] 5%N ["Schedule a majority-carries referendum to be tabled next once it is legal to schedule"%string; "an external referendum."%string; ""%string; "The dispatch of this call must be `ExternalMajorityOrigin`."%string; ""%string; "- `proposal_hash`: The preimage hash of the proposal."%string; ""%string; "Unlike `external_propose`, blacklisting has no effect on this and it may replace a"%string; "pre-scheduled `external_propose` call."%string; ""%string; "Weight: `O(1)`"%string]); (Variant "external_propose_default"%string [(Field (Some "proposal"%string) 78%N (Some "BoundedCallOf<T>"%string) [])] 6%N ["Schedule a negative-turnout-bias referendum to be tabled next once it is legal to"%string; "schedule an external referendum."%string; ""%string; "The dispatch of this call must be `ExternalDefaultOrigin`."%string; ""%string; "- `proposal_hash`: The preimage hash of the proposal."%string; ""%string; "Unlike `external_propose`, blacklisting has no effect on this and it may replace a"%string; "pre-scheduled `external_propose` call."%string; ""%string; "Weight: `O(1)`"%string]); (Variant "fast_track"%string [(Field (Some "proposal_hash"%string) 12%N (Some "H256"%string) []); (Field (Some "voting_period"%string) 4%N (Some "T::BlockNumber"%string) []); (Field (Some "delay"%string) 4%N (Some "T::BlockNumber"%string) [])] 7%N ["Schedule the currently externally-proposed majority-carries referendum to be tabled"%string; "immediately. If there is no externally-proposed referendum currently, or if there is one"%string; "but it is not a majority-carries referendum then it fails."%string; ""%string; "The dispatch of this call must be `FastTrackOrigin`."%string; ""%string; "- `proposal_hash`: The hash of the current external proposal."%string; "- `voting_period`: The period that is allowed for voting on this proposal. Increased to"%string; "	Must be always greater than zero."%string; "	For `FastTrackOrigin` must be equal or greater than `FastTrackVotingPeriod`."%string; "- `delay`: The number of block after voting has ended in approval and this should be"%string; "  enacted. This doesn't have a minimum amount."%string; ""%string; "Emits `Started`."%string; ""%string; "Weight: `O(1)`"%string]); (Variant "veto_external"%string [(Field (Some "proposal_hash"%string) 12%N (Some "H256"%string) [])] 8%N ["Veto and blacklist the external proposal hash."%string; ""%string; "The dispatch origin of this call must be `VetoOrigin`."%string; ""%string; "- `proposal_hash`: The preimage hash of the proposal to veto and blacklist."%string; ""%string; "Emits `Vetoed`."%string; ""%string; "Weight: `O(V + log(V))` where V is number of `existing vetoers`"%string]); (Variant "cancel_referendum"%string [(Field (Some "ref_index"%string) 91%N (Some "ReferendumIndex"%string) [])] 9%N ["Remove a referendum."%string; ""%string; "The dispatch origin of this call must be _Root_."%string; ""%string; "- `ref_index`: The index of the referendum to cancel."%string; ""%string; "# Weight: `O(1)`."%string]); (Variant "delegate"%string [(Field (Some "to"%string) 100%N (Some "AccountIdLookupOf<T>"%string) []); (Field (Some "conviction"%string) 140%N (Some "Conviction"%string) []); (Field (Some "balance"%string) 6%N (Some "BalanceOf<T>"%string) [])] 10%N ["Delegate the voting power (with some given conviction) of the sending account."%string; ""%string; "The balance delegated is locked for as long as it's delegated, and thereafter for the"%string; "time appropriate for the conviction's lock period."%string; ""%string; "The dispatch origin of this call must be _Signed_, and the signing account must either:"%string; "  - be delegating already; or"%string; "  - have no voting activity (if there is, then it will need to be removed/consolidated"%string; "    through `reap_vote` or `unvote`)."%string; ""%string; "- `to`: The account whose voting the `target` account's voting power will follow."%string; "- `conviction`: The conviction that will be attached to the delegated votes. When the"%string; "  account is undelegated, the funds will be locked for the corresponding period."%string; "- `balance`: The amount of the account's balance to be used in delegating. This must not"%string; "  be more than the account's current balance."%string; ""%string; "Emits `Delegated`."%string; ""%string; "Weight: `O(R)` where R is the number of referendums the voter delegating to has"%string; "  voted on. Weight is charged as if maximum votes."%string]); (Variant "undelegate"%string [] 11%N ["Undelegate the voting power of the sending account."%string; ""%string; "Tokens may be unlocked following once an amount of time consistent with the lock period"%string; "of the conviction with which the delegation was issued."%string; ""%string; "The dispatch origin of this call must be _Signed_ and the signing account must be"%string; "currently delegating."%string; ""%string; "Emits `Undelegated`."%string; ""%string; "Weight: `O(R)` where R is the number of referendums the voter delegating to has"%string; "  voted on. Weight is charged as if maximum votes."%string]); (Variant "clear_public_proposals"%string [] 12%N ["Clears all public proposals."%string; ""%string; "The dispatch origin of this call must be _Root_."%string; ""%string; "Weight: `O(1)`."%string]); (Variant "unlock"%string [(Field (Some "target"%string) 100%N (Some "AccountIdLookupOf<T>"%string) [])] 13%N ["Unlock tokens that have an expired lock."%string; ""%string; "The dispatch origin of this call must be _Signed_."%string; ""%string; "- `target`: The account to remove the lock on."%string; ""%string; "Weight: `O(R)` with R number of vote of target."%string]); (Variant "remove_vote"%string [(Field (Some "index"%string) 4%N (Some "ReferendumIndex"%string) [])] 14%N ["Remove a vote for a referendum."%string; ""%string; "If:"%string; "- the referendum was cancelled, or"%string; "- the referendum is ongoing, or"%string; "- the referendum has ended such that"%string; "  - the vote of the account was in opposition to the result; or"%string; "  - there was no conviction to the account's vote; or"%string; "  - the account made a split vote"%string; "...then the vote is removed cleanly and a following call to `unlock` may result in more"%string; "funds being available."%string; ""%string; "If, however, the referendum has ended and:"%string; "- it finished corresponding to the vote of the account, and"%string; "- the account made a standard vote with conviction, and"%string; "- the lock period of the conviction is not over"%string; "...then the lock will be aggregated into the overall account's lock, which may involve"%string; "*overlocking* (where the two locks are combined into a single lock that is the maximum"%string; "of both the amount locked and the time is it locked for)."%string; ""%string; "The dispatch origin of this call must be _Signed_, and the signer must have a vote"%string; "registered for referendum `index`."%string; ""%string; "- `index`: The index of referendum of the vote to be removed."%string; ""%string; "Weight: `O(R + log R)` where R is the number of referenda that `target` has voted on."%string; "  Weight is calculated for the maximum number of vote."%string]); (Variant "remove_other_vote"%string [(Field (Some "target"%string) 100%N (Some "AccountIdLookupOf<T>"%string) []); (Field (Some "index"%string) 4%N (Some "ReferendumIndex"%string) [])] 15%N ["Remove a vote for a referendum."%string; ""%string; "If the `target` is equal to the signer, then this function is exactly equivalent to"%string; "`remove_vote`. If not equal to the signer, then the vote must have expired,"%string; "either because the referendum was cancelled, because the voter lost the referendum or"%string; "because the conviction period is over."%string; ""%string; "The dispatch origin of this call must be _Signed_."%string; ""%string; "- `target`: The account of the vote to be removed; this account must have voted for"%string; "  referendum `index`."%string; "- `index`: The index of referendum of the vote to be removed."%string; ""%string; "Weight: `O(R + log R)` where R is the number of referenda that `target` has voted on."%string; "  Weight is calculated for the maximum number of vote."%string]); (Variant "blacklist"%string [(Field (Some "proposal_hash"%string) 12%N (Some "H256"%string) []); (Field (Some "maybe_ref_index"%string) 141%N (Some "Option<ReferendumIndex>"%string) [])] 16%N ["Permanently place a proposal into the blacklist. This prevents it from ever being"%string; "proposed again."%string; ""%string; "If called on a queued public or external proposal, then this will result in it being"%string; "removed. If the `ref_index` supplied is an active referendum with the proposal hash,"%string; "then it will be cancelled."%string; ""%string; "The dispatch origin of this call must be `BlacklistOrigin`."%string; ""%string; "- `proposal_hash`: The proposal hash to blacklist permanently."%string; "- `ref_index`: An ongoing referendum whose hash is `proposal_hash`, which will be"%string; "cancelled."%string; ""%string; "Weight: `O(p)` (though as this is an high-privilege dispatch, we assume it has a"%string; "  reasonable value)."%string]); (Variant "cancel_proposal"%string [(Field (Some "prop_index"%string) 91%N (Some "PropIndex"%string) [])] 17%N ["Remove a proposal."%string; ""%string; "The dispatch origin of this call must be `CancelProposalOrigin`."%string; ""%string; "- `prop_index`: The index of the proposal to cancel."%string; ""%string; "Weight: `O(p)` where `p = PublicProps::<T>::decode_len()`"%string]); (Variant "set_metadata"%string [(Field (Some "owner"%string) 67%N (Some "MetadataOwner"%string) []); (Field (Some "maybe_hash"%string) 142%N (Some "Option<PreimageHash>"%string) [])] 18%N ["Set or clear a metadata of a proposal or a referendum."%string; ""%string; "Parameters:"%string; "- `origin`: Must correspond to the `MetadataOwner`."%string; "    - `ExternalOrigin` for an external proposal with the `SuperMajorityApprove`"%string; "      threshold."%string; "    - `ExternalDefaultOrigin` for an external proposal with the `SuperMajorityAgainst`"%string; "      threshold."%string; "    - `ExternalMajorityOrigin` for an external proposal with the `SimpleMajority`"%string; "      threshold."%string; "    - `Signed` by a creator for a public proposal."%string; "    - `Signed` to clear a metadata for a finished referendum."%string; "    - `Root` to set a metadata for an ongoing referendum."%string; "- `owner`: an identifier of a metadata owner."%string; "- `maybe_hash`: The hash of an on-chain stored preimage. `None` to clear a metadata."%string])]) ["Contains one variant per dispatchable that can be called by an extrinsic."%string]).
Definition md_t140 : ty := (Ty ["pallet_democracy"%string; "conviction"%string; "Conviction"%string] [] (TVariant [(Variant "None"%string [] 0%N []); (Variant "Locked1x"%string [] 1%N []); (Variant "Locked2x"%string [] 2%N []); (Variant "Locked3x"%string [] 3%N []); (Variant "Locked4x"%string [] 4%N []); (Variant "Locked5x"%string [] 5%N []); (Variant "Locked6x"%string [] 6%N [])]) []).
Definition md_t141 : ty := (Ty ["Option"%string] [("T"%string,(Some 4%N))] (TVariant [(Variant "None"%string [] 0%N []); (Variant "Some"%string [(Field None 4%N None [])] 1%N [])]) []).
Definition md_t142 : ty := (Ty ["Option"%string] [("T"%string,(Some 12%N))] (TVariant [(Variant "None"%string [] 0%N []); (Variant "Some"%string [(Field None 12%N None [])] 1%N [])]) []).
Definition md_t143 : ty := (Ty ["pallet_collective"%string; "pallet"%string; "Call"%string] [("T"%string,None); ("I"%string,None)] (TVariant [(Variant "set_members"%string [(Field (Some "new_members"%string) 104%N (Some "Vec<T::AccountId>"%string) []); (Field (Some "prime"%string) 144%N (Some "Option<T::AccountId>"%string) []); (Field (Some "old_count"%string) 4%N (Some "MemberCount"%string) [])] 0%N ["Set the collective's membership."%string; ""%string; "- `new_members`: The new member list. Be nice to the chain and provide it sorted."%string; "- `prime`: The prime member whose vote sets the default."%string; "- `old_count`: The upper bound for the previous number of members in storage. Used for"%string; "  weight estimation."%string; ""%string; "The dispatch of this call must be `SetMembersOrigin`."%string; ""%string; "NOTE: Does not enforce the expected `MaxMembers` limit on the amount of members, but"%string; "      the weight estimations rely on it to estimate dispatchable weight."%string; ""%string; "# WARNING:"%string; ""%string; "The `pallet-collective` can also be managed by logic outside of the pallet through the"%string; "implementation of the trait [`ChangeMembers`]."%string; "Any call to `set_members` must be careful that the member set doesn't get out of sync"%string; "with other logic managing the member set."%string; ""%string; "## Complexity:"%string; "- `O(MP + N)` where:"%string; "  - `M` old-members-count (code- and governance-bounded)"%string; "  - `N` new-members-count (code- and governance-bounded)"%string; "  - `P` proposals-count (code-bounded)"%string]); (Variant "execute"%string [(Field (Some "proposal"%string) 79%N (Some "Box<<T as Config<I>>::Proposal>"%string) []); (Field (Some "length_bound"%string) 91%N (Some "u32"%string) [])] 1%N ["Dispatch a proposal from a member using the `Member` origin."%string; ""%string; "Origin must be a member of the collective."%string; ""%string; "## Complexity:"%string; "- `O(B + M + P)` where:"%string; "- `B` is `proposal` size in bytes (length-fee-bounded)"%string; "- `M` members-count (code-bounded)"%string; "- `P` complexity of dispatching `proposal`"%string]); (Variant "propose"%string [(Field (Some "threshold"%string) 91%N (Some "MemberCount"%string) []); (Field (Some "proposal"%string) 79%N (Some "Box<<T as Config<I>>::Proposal>"%string) []); (Field (Some "length_bound"%string) 91%N (Some "u32"%string) [])] 2%N ["Add a new proposal to either be voted on or executed directly."%string; ""%string; "Requires the sender to be member."%string; ""%string; "`threshold` determines whether `proposal` is executed directly (`threshold < 2`)"%string; "or put up for voting."%string; ""%string; "## Complexity"%string; "- `O(B + M + P1)` or `O(B + M + P2)` where:"%string; "  - `B` is `proposal` size in bytes (length-fee-bounded)"%string; "  - `M` is members-count (code- and governance-bounded)"%string; "  - branching is influenced by `threshold` where:"%string; "    - `P1` is proposal execution complexity (`threshold < 2`)"%string; "    - `P2` is proposals-count (code-bounded) (`threshold >= 2`)"%string]); (Variant "vote"%string [(Field (Some "proposal"%string) 12%N (Some "T::Hash"%string) []); (Field (Some "index"%string) 91%N (Some "ProposalIndex"%string) []); (Field (Some "approve"%string) 44%N (Some "bool"%string) [])] 3%N ["Add an aye or nay vote for the sender to the given proposal."%string; ""%string; "Requires the sender to be a member."%string; ""%string; "Transaction fees will be waived if the member is voting on any particular proposal"%string; "for the first time and the call is successful. Subsequent vote changes will charge a"%string; "fee."%string; "## Complexity"%string; "- `O(M)` where `M` is members-count (code- and governance-bounded)"%string]); (Variant "disapprove_proposal"%string [(Field (Some "proposal_hash"%string) 12%N (Some "T::Hash"%string) [])] 5%N ["Disapprove a proposal, close, and remove it from the system, regardless of its current"%string; "state."%string; ""%string; "Must be called by the Root origin."%string; ""%string; "Parameters:"%string; "* `proposal_hash`: The hash of the proposal that should be disapproved."%string; ""%string; "## Complexity"%string; "O(P) where P is the number of max proposals"%string]); (Variant "close"%string [(Field (Some "proposal_hash"%string) 12%N (Some "T::Hash"%string) []); (Field (Some "index"%string) 91%N (Some "ProposalIndex"%string) []); (Field (Some "proposal_weight_bound"%string) 9%N (Some "Weight"%string) []); (Field (Some "length_bound"%string) 91%N (Some "u32"%string) [])] 6%N ["Close a vote that is either approved, disapproved or whose voting period has ended."%string; ""%string; "May be called by any signed account in order to finish voting and close the proposal."%string; ""%string; "If called before the end of the voting period it will only close the vote if it is"%string; "has enough votes to be approved or disapproved."%string; ""%string; "If called after the end of the voting period abstentions are counted as rejections"%string; "unless there is a prime member set and the prime member cast an approval."%string; ""%string; "If the close operation completes successfully with disapproval, the transaction fee will"%string; "be waived. Otherwise execution of the approved operation will be charged to the caller."%string; ""%string; "+ `proposal_weight_bound`: The maximum amount of weight consumed by executing the closed"%string; "proposal."%string; "+ `length_bound`: The upper bound for the length of the proposal in storage. Checked via"%string; "`storage::read` so it is `size_of::<u32>() == 4` larger than the pure length."%string; ""%string; "## Complexity"%string; "- `O(B + M + P1 + P2)` where:"%string; "  - `B` is `proposal` size in bytes (length-fee-bounded)"%string; "  - `M` is members-count (code- and governance-bounded)"%string; "  - `P1` is the complexity of `proposal` preimage."%string; "  - `P2` is proposal-count (code-bounded)"%string])]) ["Contains one variant per dispatchable that can be called by an extrinsic."%string]).
Definition md_t144 : ty := (Ty ["Option"%string] [("T"%string,(Some 0%N))] (TVariant [(Variant "None"%string [] 0%N []); (Variant "Some"%string [(Field None 0%N None [])] 1%N [])]) []).
Definition md_t145 : ty := (Ty ["pallet_collective"%string; "pallet"%string; "Call"%string] [("T"%string,None); ("I"%string,None)] (TVariant [(Variant "set_members"%string [(Field (Some "new_members"%string) 104%N (Some "Vec<T::AccountId>"%string) []); (Field (Some "prime"%string) 144%N (Some "Option<T::AccountId>"%string) []); (Field (Some "old_count"%string) 4%N (Some "MemberCount"%string) [])] 0%N ["Set the collective's membership."%string; ""%string; "- `new_members`: The new member list. Be nice to the chain and provide it sorted."%string; "- `prime`: The prime member whose vote sets the default."%string; "- `old_count`: The upper bound for the previous number of members in storage. Used for"%string; "  weight estimation."%string; ""%string; "The dispatch of this call must be `SetMembersOrigin`."%string; ""%string; "NOTE: Does not enforce the expected `MaxMembers` limit on the amount of members, but"%string; "      the weight estimations rely on it to estimate dispatchable weight."%string; ""%string; "# WARNING:"%string; ""%string; "The `pallet-collective` can also be managed by logic outside of the pallet through the"%string; "implementation of the trait [`ChangeMembers`]."%string; "Any call to `set_members` must be careful that the member set doesn't get out of sync"%string; "with other logic managing the member set."%string; ""%string; "## Complexity:"%string; "- `O(MP + N)` where:"%string; "  - `M` old-members-count (code- and governance-bounded)"%string; "  - `N` new-members-count (code- and governance-bounded)"%string; "  - `P` proposals-count (code-bounded)"%string]); (Variant "execute"%string [(Field (Some "proposal"%string) 79%N (Some "Box<<T as Config<I>>::Proposal>"%string) []); (Field (Some "length_bound"%string) 91%N (Some "u32"%string) [])] 1%N ["Dispatch a proposal from a member using the `Member` origin."%string; ""%string; "Origin must be a member of the collective."%string; ""%string; "## Complexity:"%string; "- `O(B + M + P)` where:"%string; "- `B` is `proposal` size in bytes (length-fee-bounded)"%string; "- `M` members-count (code-bounded)"%string; "- `P` complexity of dispatching `proposal`"%string]); (Variant "propose"%string [(Field (Some "threshold"%string) 91%N (Some "MemberCount"%string) []); (Field (Some "proposal"%string) 79%N (Some "Box<<T as Config<I>>::Proposal>"%string) []); (Field (Some "length_bound"%string) 91%N (Some "u32"%string) [])] 2%N ["Add a new proposal to either be voted on or executed directly."%string; ""%string; "Requires the sender to be member."%string; ""%string; "`threshold` determines whether `proposal` is executed directly (`threshold < 2`)"%string; "or put up for voting."%string; ""%string; "## Complexity"%string; "- `O(B + M + P1)` or `O(B + M + P2)` where:"%string; "  - `B` is `proposal` size in bytes (length-fee-bounded)"%string; "  - `M` is members-count (code- and governance-bounded)"%string; "  - branching is influenced by `threshold` where:"%string; "    - `P1` is proposal execution complexity (`threshold < 2`)"%string; "    - `P2` is proposals-count (code-bounded) (`threshold >= 2`)"%string]); (Variant "vote"%string [(Field (Some "proposal"%string) 12%N (Some "T::Hash"%string) []); (Field (Some "index"%string) 91%N (Some "ProposalIndex"%string) []); (Field (Some "approve"%string) 44%N (Some "bool"%string) [])] 3%N ["Add an aye or nay vote for the sender to the given proposal."%string; ""%string; "Requires the sender to be a member."%string; ""%string; "Transaction fees will be waived if the member is voting on any particular proposal"%string; "for the first time and the call is successful. Subsequent vote changes will charge a"%string; "fee."%string; "## Complexity"%string; "- `O(M)` where `M` is members-count (code- and governance-bounded)"%string]); (Variant "disapprove_proposal"%string [(Field (Some "proposal_hash"%string) 12%N (Some "T::Hash"%string) [])] 5%N ["Disapprove a proposal, close, and remove it from the system, regardless of its current"%string; "state."%string; ""%string; "Must be called by the Root origin."%string; ""%string; "Parameters:"%string; "* `proposal_hash`: The hash of the proposal that should be disapproved."%string; ""%string; "## Complexity"%string; "O(P) where P is the number of max proposals"%string]); (Variant "close"%string [(Field (Some "proposal_hash"%string) 12%N (Some "T::Hash"%string) []); (Field (Some "index"%string) 91%N (Some "ProposalIndex"%string) []); (Field (Some "proposal_weight_bound"%string) 9%N (Some "Weight"%string) []); (Field (Some "length_bound"%string) 91%N (Some "u32"%string) [])] 6%N ["Close a vote that is either approved, disapproved or whose voting period has ended."%string; ""%string; "May be called by any signed account in order to finish voting and close the proposal."%string; ""%string; "If called before the end of the voting period it will only close the vote if it is"%string; "has enough votes to be approved or disapproved."%string; ""%string; "If called after the end of the voting period abstentions are counted as rejections"%string; "unless there is a prime member set and the prime member cast an approval."%string; ""%string; "If the close operation completes successfully with disapproval, the transaction fee will"%string; "be waived. Otherwise execution of the approved operation will be charged to the caller."%string; ""%string; "+ `proposal_weight_bound`: The maximum amount of weight consumed by executing the closed"%string; "proposal."%string; "+ `length_bound`: The upper bound for the length of the proposal in storage. Checked via"%string; "`storage::read` so it is `size_of::<u32>() == 4` larger than the pure length."%string; ""%string; "## Complexity"%string; "- `O(B + M + P1 + P2)` where:"%string; "  - `B` is `proposal` size in bytes (length-fee-bounded)"%string; "  - `M` is members-count (code- and governance-bounded)"%string; "  - `P1` is the complexity of `proposal` preimage."%string; "  - `P2` is proposal-count (code-bounded)"%string])]) ["Contains one variant per dispatchable that can be called by an extrinsic."%string]).
Definition md_t146 : ty := (Ty ["pallet_elections_phragmen"%string; "pallet"%string; "Call"%string] [("T"%string,None)] (TVariant [(Variant "vote"%string [(Field (Some "votes"%string) 104%N (Some "Vec<T::AccountId>"%string) []); (Field (Some "value"%string) 60%N (Some "BalanceOf<T>"%string) [])] 0%N ["Vote for a set of candidates for the upcoming round of election. This can be called to"%string; "set the initial votes, or update already existing votes."%string; ""%string; "Upon initial voting, `value` units of `who`'s balance is locked and a deposit amount is"%string; "reserved. The deposit is based on the number of votes and can be updated over time."%string; ""%string; "The `votes` should:"%string; "  - not be empty."%string; "  - be less than the number of possible candidates. Note that all current members and"%string; "    runners-up are also automatically candidates for the next round."%string; ""%string; "If `value` is more than `who`'s free balance, then the maximum of the two is used."%string; ""%string; "The dispatch origin of this call must be signed."%string; ""%string; "### Warning"%string; ""%string; "It is the responsibility of the caller to **NOT** place all of their balance into the"%string; "lock and keep some for further operations."%string]); (Variant "remove_voter"%string [] 1%N ["Remove `origin` as a voter."%string; ""%string; "This removes the lock and returns the deposit."%string; ""%string; "The dispatch origin of this call must be signed and be a voter."%string]); (Variant "submit_candidacy"%string [(Field (Some "candidate_count"%string) 91%N (Some "u32"%string) [])] 2%N ["Submit oneself for candidacy. A fixed amount of deposit is recorded."%string; ""%string; "All candidates are wiped at the end of the term. They either become a member/runner-up,"%string; "or leave the system while their deposit is slashed."%string; ""%string; "The dispatch origin of this call must be signed."%string; ""%string; "### Warning"%string; ""%string; "Even if a candidate ends up being a member, they must call [`Call::renounce_candidacy`]"%string; "to get their deposit back. Losing the spot in an election will always lead to a slash."%string; ""%string; "The number of current candidates must be provided as witness data."%string; "## Complexity"%string; "O(C + log(C)) where C is candidate_count."%string]); (Variant "renounce_candidacy"%string [(Field (Some "renouncing"%string) 147%N (Some "Renouncing"%string) [])] 3%N ["Renounce one's intention to be a candidate for the next election round. 3 potential"%string; "outcomes exist:"%string; ""%string; "- `origin` is a candidate and not elected in any set. In this case, the deposit is"%string; "  unreserved, returned and origin is removed as a candidate."%string; "- `origin` is a current runner-up. In this case, the deposit is unreserved, returned and"%string; "  origin is removed as a runner-up."%string; "- `origin` is a current member. In this case, the deposit is unreserved and origin is"%string; "  removed as a member, consequently not being a candidate for the next round anymore."%string; "  Similar to [`remove_member`](Self::remove_member), if replacement runners exists, they"%string; "  are immediately used. If the prime is renouncing, then no prime will exist until the"%string; "  next round."%string; ""%string; "The dispatch origin of this call must be signed, and have one of the above roles."%string; "The type of renouncing must be provided as witness data."%string; ""%string; "## Complexity"%string; "  - Renouncing::Candidate(count): O(count + log(count))"%string; "  - Renouncing::Member: O(1)"%string; "  - Renouncing::RunnerUp: O(1)"%string]); (Variant "remove_member"%string [(Field (Some "who"%string) 100%N (Some "AccountIdLookupOf<T>"%string) []); (Field (Some "slash_bond"%string) 44%N (Some "bool"%string) []); (Field (Some "rerun_election"%string) 44%N (Some "bool"%string) [])] 4%N ["Remove a particular member from the set. This is effective immediately and the bond of"%string; "the outgoing member is slashed."%string; ""%string; "If a runner-up is available, then the best runner-up will be removed and replaces the"%string; "outgoing member. Otherwise, if `rerun_election` is `true`, a new phragmen election is"%string; "started, else, nothing happens."%string; ""%string; "If `slash_bond` is set to true, the bond of the member being removed is slashed. Else,"%string; "it is returned."%string; ""%string; "The dispatch origin of this call must be root."%string; ""%string; "Note that this does not affect the designated block number of the next election."%string; ""%string; "## Complexity"%string; "- Check details of remove_and_replace_member() and do_phragmen()."%string]); (Variant "clean_defunct_voters"%string [(Field (Some "num_voters"%string) 4%N (Some "u32"%string) []); (Field (Some "num_defunct"%string) 4%N (Some "u32"%string) [])] 5%N ["Clean all voters who are defunct (i.e. they do not serve any purpose at all). The"%string; "deposit of the removed voters are returned."%string; ""%string; "This is an root function to be used only for cleaning the state."%string; ""%string; "The dispatch origin of this call must be root."%string; ""%string; "## Complexity"%string; "- Check is_defunct_voter() details."%string])]) ["Contains one variant per dispatchable that can be called by an extrinsic."%string]).
Definition md_t147 : ty := (Ty ["pallet_elections_phragmen"%string; "Renouncing"%string] [] (TVariant [(Variant "Member"%string [] 0%N []); (Variant "RunnerUp"%string [] 1%N []); (Variant "Candidate"%string [(Field None 91%N (Some "u32"%string) [])] 2%N [])]) []).
Definition md_t148 : ty := (Ty ["pallet_membership"%string; "pallet"%string; "Call"%string] [("T"%string,None); ("I"%string,None)] (TVariant [(Variant "add_member"%string [(Field (Some "who"%string) 100%N (Some "AccountIdLookupOf<T>"%string) [])] 0%N ["Add a member `who` to the set."%string; ""%string; "May only be called from `T::AddOrigin`."%string]); (Variant "remove_member"%string [(Field (Some "who"%string) 100%N (Some "AccountIdLookupOf<T>"%string) [])] 1%N ["Remove a member `who` from the set."%string; ""%string; "May only be called from `T::RemoveOrigin`."%string]); (Variant "swap_member"%string [(Field (Some "remove"%string) 100%N (Some "AccountIdLookupOf<T>"%string) []); (Field (Some "add"%string) 100%N (Some "AccountIdLookupOf<T>"%string) [])] 2%N ["Swap out one member `remove` for another `add`."%string; ""%string; "May only be called from `T::SwapOrigin`."%string; ""%string; "Prime membership is *not* passed from `remove` to `add`, if extant."%string]); (Variant "reset_members"%string [(Field (Some "members"%string) 104%N (Some "Vec<T::AccountId>"%string) [])] 3%N ["Change the membership to a new set, disregarding the existing membership. Be nice and"%string; "pass `members` pre-sorted."%string; ""%string; "May only be called from `T::ResetOrigin`."%string]); (Variant "change_key"%string [(Field (Some "new"%string) 100%N (Some "AccountIdLookupOf<T>"%string) [])] 4%N ["Swap out the sending member for some other key `new`."%string; ""%string; "May only be called from `Signed` origin of a current member."%string; ""%string; "Prime membership is passed from the origin account to `new`, if extant."%string]); (Variant "set_prime"%string [(Field (Some "who"%string) 100%N (Some "AccountIdLookupOf<T>"%string) [])] 5%N ["Set the prime member. Must be a current member."%string; ""%string; "May only be called from `T::PrimeOrigin`."%string]); (Variant "clear_prime"%string [] 6%N ["Remove the prime member if it exists."%string; ""%string; "May only be called from `T::PrimeOrigin`."%string])]) ["Contains one variant per dispatchable that can be called by an extrinsic."%string]).
Definition md_t149 : ty := (Ty ["pallet_treasury"%string; "pallet"%string; "Call"%string] [("T"%string,None); ("I"%string,None)] (TVariant [(Variant "propose_spend"%string [(Field (Some "value"%string) 60%N (Some "BalanceOf<T, I>"%string) []); (Field (Some "beneficiary"%string) 100%N (Some "AccountIdLookupOf<T>"%string) [])] 0%N ["Put forward a suggestion for spending. A deposit proportional to the value"%string; "is reserved and slashed if the proposal is rejected. It is returned once the"%string; "proposal is awarded."%string; ""%string; "## Complexity"%string; "- O(1)"%string]); (Variant "reject_proposal"%string [(Field (Some "proposal_id"%string) 91%N (Some "ProposalIndex"%string) [])] 1%N ["Reject a proposed spend. The original deposit will be slashed."%string; ""%string; "May only be called from `T::RejectOrigin`."%string; ""%string; "## Complexity"%string; "- O(1)"%string]); (Variant "approve_proposal"%string [(Field (Some "proposal_id"%string) 91%N (Some "ProposalIndex"%string) [])] 2%N ["Approve a proposal. At a later time, the proposal will be allocated to the beneficiary"%string; "and the original deposit will be returned."%string; ""%string; "May only be called from `T::ApproveOrigin`."%string; ""%string; "## Complexity"%string; " - O(1)."%string]); (Variant "spend"%string [(Field (Some "amount"%string) 60%N (Some "BalanceOf<T, I>"%string) []); (Field (Some "beneficiary"%string) 100%N (Some "AccountIdLookupOf<T>"%string) [])] 3%N ["Propose and approve a spend of treasury funds."%string; ""%string; "- `origin`: Must be `SpendOrigin` with the `Success` value being at least `amount`."%string; "- `amount`: The amount to be transferred from the treasury to the `beneficiary`."%string; "- `beneficiary`: The destination account for the transfer."%string; ""%string; "NOTE: For record-keeping purposes, the proposer is deemed to be equivalent to the"%string; "beneficiary."%string]); (Variant "remove_approval"%string [(Field (Some "proposal_id"%string) 91%N (Some "ProposalIndex"%string) [])] 4%N ["Force a previously approved proposal to be removed from the approval queue."%string; "The original deposit will no longer be returned."%string; ""%string; "May only be called from `T::RejectOrigin`."%string; "- `proposal_id`: The index of a proposal"%string; ""%string; "## Complexity"%string; "- O(A) where `A` is the number of approvals"%string; ""%string; "Errors:"%string; "- `ProposalNotApproved`: The `proposal_id` supplied was not found in the approval queue,"%string; "i.e., the proposal has not been approved. This could also mean the proposal does not"%string; "exist altogether, thus there is no way it would have been approved in the first place."%string])]) ["Contains one variant per dispatchable that can be called by an extrinsic."%string]).
Definition md_t150 : ty := (Ty ["pallet_conviction_voting"%string; "pallet"%string; "Call"%string] [("T"%string,None); ("I"%string,None)] (TVariant [(Variant "vote"%string [(Field (Some "poll_index"%string) 91%N (Some "PollIndexOf<T, I>"%string) []); (Field (Some "vote"%string) 151%N (Some "AccountVote<BalanceOf<T, I>>"%string) [])] 0%N ["Vote in a poll. If `vote.is_aye()`, the vote is to enact the proposal;"%string; "otherwise it is a vote to keep the status quo."%string; ""%string; "The dispatch origin of this call must be _Signed_."%string; ""%string; "- `poll_index`: The index of the poll to vote for."%string; "- `vote`: The vote configuration."%string; ""%string; "Weight: `O(R)` where R is the number of polls the voter has voted on."%string]); (Variant "delegate"%string [(Field (Some "class"%string) 77%N (Some "ClassOf<T, I>"%string) []); (Field (Some "to"%string) 100%N (Some "AccountIdLookupOf<T>"%string) []); (Field (Some "conviction"%string) 153%N (Some "Conviction"%string) []); (Field (Some "balance"%string) 6%N (Some "BalanceOf<T, I>"%string) [])] 1%N ["Delegate the voting power (with some given conviction) of the sending account for a"%string; "particular class of polls."%string; ""%string; "The balance delegated is locked for as long as it's delegated, and thereafter for the"%string; "time appropriate for the conviction's lock period."%string; ""%string; "The dispatch origin of this call must be _Signed_, and the signing account must either:"%string; "  - be delegating already; or"%string; "  - have no voting activity (if there is, then it will need to be removed/consolidated"%string; "    through `reap_vote` or `unvote`)."%string; ""%string; "- `to`: The account whose voting the `target` account's voting power will follow."%string; "- `class`: The class of polls to delegate. To delegate multiple classes, multiple calls"%string; "  to this function are required."%string; "- `conviction`: The conviction that will be attached to the delegated votes. When the"%string; "  account is undelegated, the funds will be locked for the corresponding period."%string; "- `balance`: The amount of the account's balance to be used in delegating. This must not"%string; "  be more than the account's current balance."%string; ""%string; "Emits `Delegated`."%string; ""%string; "Weight: `O(R)` where R is the number of polls the voter delegating to has"%string; "  voted on. Weight is initially charged as if maximum votes, but is refunded later."%string]); (Variant "undelegate"%string [(Field (Some "class"%string) 77%N (Some "ClassOf<T, I>"%string) [])] 2%N ["Undelegate the voting power of the sending account for a particular class of polls."%string; ""%string; "Tokens may be unlocked following once an amount of time consistent with the lock period"%string; "of the conviction with which the delegation was issued has passed."%string; ""%string; "The dispatch origin of this call must be _Signed_ and the signing account must be"%string; "currently delegating."%string; ""%string; "- `class`: The class of polls to remove the delegation from."%string; ""%string; "Emits `Undelegated`."%string; ""%string; "Weight: `O(R)` where R is the number of polls the voter delegating to has"%string; "  voted on. Weight is initially charged as if maximum votes, but is refunded later."%string]); (Variant "unlock"%string [(Field (Some "class"%string) 77%N (Some "ClassOf<T, I>"%string) []); (Field (Some "target"%string) 100%N (Some "AccountIdLookupOf<T>"%string) [])] 3%N ["Remove the lock caused by prior voting/delegating which has expired within a particular"%string; "class."%string; ""%string; "The dispatch origin of this call must be _Signed_."%string; ""%string; "- `class`: The class of polls to unlock."%string; "- `target`: The account to remove the lock on."%string; ""%string; "Weight: `O(R)` with R number of vote of target."%string]); (Variant "remove_vote"%string [(Field (Some "class"%string) 154%N (Some "Option<ClassOf<T, I>>"%string) []); (Field (Some "index"%string) 4%N (Some "PollIndexOf<T, I>"%string) [])] 4%N ["Remove a vote for a poll."%string; ""%string; "If:"%string; "- the poll was cancelled, or"%string; "- the poll is ongoing, or"%string; "- the poll has ended such that"%string; "  - the vote of the account was in opposition to the result; or"%string; "  - there was no conviction to the account's vote; or"%string; "  - the account made a split vote"%string; "...then the vote is removed cleanly and a following call to `unlock` may result in more"%string; "funds being available."%string; ""%string; "If, however, the poll has ended and:"%string; "- it finished corresponding to the vote of the account, and"%string; "- the account made a standard vote with conviction, and"%string; "- the lock period of the conviction is not over"%string; "...then the lock will be aggregated into the overall account's lock, which may involve"%string; "*overlocking* (where the two locks are combined into a single lock that is the maximum"%string; "of both the amount locked and the time is it locked for)."%string; ""%string; "The dispatch origin of this call must be _Signed_, and the signer must have a vote"%string; "registered for poll `index`."%string; ""%string; "- `index`: The index of poll of the vote to be removed."%string; "- `class`: Optional parameter, if given it indicates the class of the poll. For polls"%string; "  which have finished or are cancelled, this must be `Some`."%string; ""%string; "Weight: `O(R + log R)` where R is the number of polls that `target` has voted on."%string; "  Weight is calculated for the maximum number of vote."%string]); (Variant "remove_other_vote"%string [(Field (Some "target"%string) 100%N (Some "AccountIdLookupOf<T>"%string) []); (Field (Some "class"%string) 77%N (Some "ClassOf<T, I>"%string) []); (Field (Some "index"%string) 4%N (Some "PollIndexOf<T, I>"%string) [])] 5%N ["Remove a vote for a poll."%string; ""%string; "If the `target` is equal to the signer, then this function is exactly equivalent to"%string; "`remove_vote`. If not equal to the signer, then the vote must have expired,"%string; "either because the poll was cancelled, because the voter lost the poll or"%string; "because the conviction period is over."%string; ""%string; "The dispatch origin of this call must be _Signed_."%string; ""%string; "- `target`: The account of the vote to be removed; this account must have voted for poll"%string; "  `index`."%string; "- `index`: The index of poll of the vote to be removed."%string; "- `class`: The class of the poll."%string; ""%string; "Weight: `O(R + log R)` where R is the number of polls that `target` has voted on."%string; "  Weight is calculated for the maximum number of vote."%string])]) ["Contains one variant per dispatchable that can be called by an extrinsic."%string]).
Definition md_t151 : ty := (Ty ["pallet_conviction_voting"%string; "vote"%string; "AccountVote"%string] [("Balance"%string,(Some 6%N))] (TVariant [(Variant "Standard"%string [(Field (Some "vote"%string) 152%N (Some "Vote"%string) []); (Field (Some "balance"%string) 6%N (Some "Balance"%string) [])] 0%N []); (Variant "Split"%string [(Field (Some "aye"%string) 6%N (Some "Balance"%string) []); (Field (Some "nay"%string) 6%N (Some "Balance"%string) [])] 1%N []); (Variant "SplitAbstain"%string [(Field (Some "aye"%string) 6%N (Some "Balance"%string) []); (Field (Some "nay"%string) 6%N (Some "Balance"%string) []); (Field (Some "abstain"%string) 6%N (Some "Balance"%string) [])] 2%N [])]) []).
Definition md_t152 : ty := (Ty ["pallet_conviction_voting"%string; "vote"%string; "Vote"%string] [] (TComposite [(Field None 2%N None [])]) []).
Definition md_t153 : ty := (Ty ["pallet_conviction_voting"%string; "conviction"%string; "Conviction"%string] [] (TVariant [(Variant "None"%string [] 0%N []); (Variant "Locked1x"%string [] 1%N []); (Variant "Locked2x"%string [] 2%N []); (Variant "Locked3x"%string [] 3%N []); (Variant "Locked4x"%string [] 4%N []); (Variant "Locked5x"%string [] 5%N []); (Variant "Locked6x"%string [] 6%N [])]) []).
Definition md_t154 : ty := (Ty ["Option"%string] [("T"%string,(Some 77%N))] (TVariant [(Variant "None"%string [] 0%N []); (Variant "Some"%string [(Field None 77%N None [])] 1%N [])]) []).
Definition md_t155 : ty := (Ty ["pallet_referenda"%string; "pallet"%string; "Call"%string] [("T"%string,None); ("I"%string,None)] (TVariant [(Variant "submit"%string [(Field (Some "proposal_origin"%string) 156%N (Some "Box<PalletsOriginOf<T>>"%string) []); (Field (Some "proposal"%string) 78%N (Some "BoundedCallOf<T, I>"%string) []); (Field (Some "enactment_moment"%string) 172%N (Some "DispatchTime<T::BlockNumber>"%string) [])] 0%N ["Propose a referendum on a privileged action."%string; ""%string; "- `origin`: must be `SubmitOrigin` and the account must have `SubmissionDeposit` funds"%string; "  available."%string; "- `proposal_origin`: The origin from which the proposal should be executed."%string; "- `proposal`: The proposal."%string; "- `enactment_moment`: The moment that the proposal should be enacted."%string; ""%string; "Emits `Submitted`."%string]); (Variant "place_decision_deposit"%string [(Field (Some "index"%string) 4%N (Some "ReferendumIndex"%string) [])] 1%N ["Post the Decision Deposit for a referendum."%string; ""%string; "- `origin`: must be `Signed` and the account must have funds available for the"%string; "  referendum's track's Decision Deposit."%string; "- `index`: The index of the submitted referendum whose Decision Deposit is yet to be"%string; "  posted."%string; ""%string; "Emits `DecisionDepositPlaced`."%string]); (Variant "refund_decision_deposit"%string [(Field (Some "index"%string) 4%N (Some "ReferendumIndex"%string) [])] 2%N ["Refund the Decision Deposit for a closed referendum back to the depositor."%string; ""%string; "- `origin`: must be `Signed` or `Root`."%string; "- `index`: The index of a closed referendum whose Decision Deposit has not yet been"%string; "  refunded."%string; ""%string; "Emits `DecisionDepositRefunded`."%string]); (Variant "cancel"%string [(Field (Some "index"%string) 4%N (Some "ReferendumIndex"%string) [])] 3%N ["Cancel an ongoing referendum."%string; ""%string; "- `origin`: must be the `CancelOrigin`."%string; "- `index`: The index of the referendum to be cancelled."%string; ""%string; "Emits `Cancelled`."%string]); (Variant "kill"%string [(Field (Some "index"%string) 4%N (Some "ReferendumIndex"%string) [])] 4%N ["Cancel an ongoing referendum and slash the deposits."%string; ""%string; "- `origin`: must be the `KillOrigin`."%string; "- `index`: The index of the referendum to be cancelled."%string; ""%string; "Emits `Killed` and `DepositSlashed`."%string]); (Variant "nudge_referendum"%string [(Field (Some "index"%string) 4%N (Some "ReferendumIndex"%string) [])] 5%N ["Advance a referendum onto its next logical state. Only used internally."%string; ""%string; "- `origin`: must be `Root`."%string; "- `index`: the referendum to be advanced."%string]); (Variant "one_fewer_deciding"%string [(Field (Some "track"%string) 77%N (Some "TrackIdOf<T, I>"%string) [])] 6%N ["Advance a track onto its next logical state. Only used internally."%string; ""%string; "- `origin`: must be `Root`."%string; "- `track`: the track to be advanced."%string; ""%string; "Action item for when there is now one fewer referendum in the deciding phase and the"%string; "`DecidingCount` is not yet updated. This means that we should either:"%string; "- begin deciding another referendum (and leave `DecidingCount` alone); or"%string; "- decrement `DecidingCount`."%string]); (Variant "refund_submission_deposit"%string [(Field (Some "index"%string) 4%N (Some "ReferendumIndex"%string) [])] 7%N ["Refund the Submission Deposit for a closed referendum back to the depositor."%string; ""%string; "- `origin`: must be `Signed` or `Root`."%string; "- `index`: The index of a closed referendum whose Submission Deposit has not yet been"%string; "  refunded."%string; ""%string; "Emits `SubmissionDepositRefunded`."%string]); (Variant "set_metadata"%string [(Field (Some "index"%string) 4%N (Some "ReferendumIndex"%string) []); (Field (Some "maybe_hash"%string) 142%N (Some "Option<PreimageHash>"%string) [])] 8%N ["Set or clear metadata of a referendum."%string; ""%string; "Parameters:"%string; "- `origin`: Must be `Signed` by a creator of a referendum or by anyone to clear a"%string; "  metadata of a finished referendum."%string; "- `index`:  The index of a referendum to set or clear metadata for."%string; "- `maybe_hash`: The hash of an on-chain stored preimage. `None` to clear a metadata."%string])]) ["Contains one variant per dispatchable that can be called by an extrinsic."%string]).
Definition md_t156 : ty := (Ty ["polkadot_runtime"%string; "OriginCaller"%string] [] (TVariant [(Variant "system"%string [(Field None 157%N (Some "frame_system::Origin<Runtime>"%string) [])] 0%N []); (Variant "Council"%string [(Field None 158%N (Some "pallet_collective::Origin<Runtime, pallet_collective::Instance1>"%string) [])] 15%N []); (Variant "TechnicalCommittee"%string [(Field None 159%N (Some "pallet_collective::Origin<Runtime, pallet_collective::Instance2>"%string) [])] 16%N []); (Variant "Origins"%string [(Field None 160%N (Some "pallet_custom_origins::Origin"%string) [])] 22%N []); (Variant "ParachainsOrigin"%string [(Field None 161%N (Some "parachains_origin::Origin"%string) [])] 50%N []); (Variant "XcmPallet"%string [(Field None 163%N (Some "pallet_xcm::Origin"%string) [])] 99%N []); (Variant "Void"%string [(Field None 171%N (Some "self::sp_api_hidden_includes_construct_runtime::hidden_include::Void"%string) [])] 6%N [])]) []).
Definition md_t157 : ty := (Ty ["frame_support"%string; "dispatch"%string; "RawOrigin"%string] [("AccountId"%string,(Some 0%N))] (TVariant [(Variant "Root"%string [] 0%N []); (Variant "Signed"%string [(Field None 0%N (Some "AccountId"%string) [])] 1%N []); (Variant "None"%string [] 2%N [])]) []).
Definition md_t158 : ty := (Ty ["pallet_collective"%string; "RawOrigin"%string] [("AccountId"%string,(Some 0%N)); ("I"%string,None)] (TVariant [(Variant "Members"%string [(Field None 4%N (Some "MemberCount"%string) []); (Field None 4%N (Some "MemberCount"%string) [])] 0%N []); (Variant "Member"%string [(Field None 0%N (Some "AccountId"%string) [])] 1%N []); (Variant "_Phantom"%string [] 2%N [])]) []).
Definition md_t159 : ty := (Ty ["pallet_collective"%string; "RawOrigin"%string] [("AccountId"%string,(Some 0%N)); ("I"%string,None)] (TVariant [(Variant "Members"%string [(Field None 4%N (Some "MemberCount"%string) []); (Field None 4%N (Some "MemberCount"%string) [])] 0%N []); (Variant "Member"%string [(Field None 0%N (Some "AccountId"%string) [])] 1%N []); (Variant "_Phantom"%string [] 2%N [])]) []).
Definition md_t160 : ty := (Ty ["polkadot_runtime"%string; "governance"%string; "origins"%string; "pallet_custom_origins"%string; "Origin"%string] [] (TVariant [(Variant "StakingAdmin"%string [] 0%N []); (Variant "Treasurer"%string [] 1%N []); (Variant "FellowshipAdmin"%string [] 2%N []); (Variant "GeneralAdmin"%string [] 3%N []); (Variant "AuctionAdmin"%string [] 4%N []); (Variant "LeaseAdmin"%string [] 5%N []); (Variant "ReferendumCanceller"%string [] 6%N []); (Variant "ReferendumKiller"%string [] 7%N []); (Variant "SmallTipper"%string [] 8%N []); (Variant "BigTipper"%string [] 9%N []); (Variant "SmallSpender"%string [] 10%N []); (Variant "MediumSpender"%string [] 11%N []); (Variant "BigSpender"%string [] 12%N []); (Variant "WhitelistedCaller"%string [] 13%N [])]) []).
Definition md_t161 : ty := (Ty ["polkadot_runtime_parachains"%string; "origin"%string; "pallet"%string; "Origin"%string] [] (TVariant [(Variant "Parachain"%string [(Field None 162%N (Some "ParaId"%string) [])] 0%N [])]) []).
Definition md_t162 : ty := (Ty ["polkadot_parachain"%string; "primitives"%string; "Id"%string] [] (TComposite [(Field None 4%N (Some "u32"%string) [])]) []).
Definition md_t163 : ty := (Ty ["pallet_xcm"%string; "pallet"%string; "Origin"%string] [] (TVariant [(Variant "Xcm"%string [(Field None 164%N (Some "MultiLocation"%string) [])] 0%N []); (Variant "Response"%string [(Field None 164%N (Some "MultiLocation"%string) [])] 1%N [])]) []).
Definition md_t164 : ty := (Ty ["xcm"%string; "v3"%string; "multilocation"%string; "MultiLocation"%string] [] (TComposite [(Field (Some "parents"%string) 2%N (Some "u8"%string) []); (Field (Some "interior"%string) 165%N (Some "Junctions"%string) [])]) []).
Definition md_t165 : ty := (Ty ["xcm"%string; "v3"%string; "junctions"%string; "Junctions"%string] [] (TVariant [(Variant "Here"%string [] 0%N []); (Variant "X1"%string [(Field None 166%N (Some "Junction"%string) [])] 1%N []); (Variant "X2"%string [(Field None 166%N (Some "Junction"%string) []); (Field None 166%N (Some "Junction"%string) [])] 2%N []); (Variant "X3"%string [(Field None 166%N (Some "Junction"%string) []); (Field None 166%N (Some "Junction"%string) []); (Field None 166%N (Some "Junction"%string) [])] 3%N []); (Variant "X4"%string [(Field None 166%N (Some "Junction"%string) []); (Field None 166%N (Some "Junction"%string) []); (Field None 166%N (Some "Junction"%string) []); (Field None 166%N (Some "Junction"%string) [])] 4%N []); (Variant "X5"%string [(Field None 166%N (Some "Junction"%string) []); (Field None 166%N (Some "Junction"%string) []); (Field None 166%N (Some "Junction"%string) []); (Field None 166%N (Some "Junction"%string) []); (Field None 166%N (Some "Junction"%string) [])] 5%N []); (Variant "X6"%string [(Field None 166%N (Some "Junction"%string) []); (Field None 166%N (Some "Junction"%string) []); (Field None 166%N (Some "Junction"%string) []); (Field None 166%N (Some "Junction"%string) []); (Field None 166%N (Some "Junction"%string) []); (Field None 166%N (Some "Junction"%string) [])] 6%N []); (Variant "X7"%string [(Field None 166%N (Some "Junction"%string) []); (Field None 166%N (Some "Junction"%string) []); (Field None 166%N (Some "Junction"%string) []); (Field None 166%N (Some "Junction"%string) []); (Field None 166%N (Some "Junction"%string) []); (Field None 166%N (Some "Junction"%string) []); (Field None 166%N (Some "Junction"%string) [])] 7%N []); (Variant "X8"%string [(Field None 166%N (Some "Junction"%string) []); (Field None 166%N (Some "Junction"%string) []); (Field None 166%N (Some "Junction"%string) []); (Field None 166%N (Some "Junction"%string) []); (Field None 166%N (Some "Junction"%string) []); (Field None 166%N (Some "Junction"%string) []); (Field None 166%N (Some "Junction"%string) []); (Field None 166%N (Some "Junction"%string) [])] 8%N [])]) []).
Definition md_t166 : ty := (Ty ["xcm"%string; "v3"%string; "junction"%string; "Junction"%string] [] (TVariant [(Variant "Parachain"%string [(Field None 91%N (Some "u32"%string) [])] 0%N []); (Variant "AccountId32"%string [(Field (Some "network"%string) 167%N (Some "Option<NetworkId>"%string) []); (Field (Some "id"%string) 1%N (Some "[u8; 32]"%string) [])] 1%N []); (Variant "AccountIndex64"%string [(Field (Some "network"%string) 167%N (Some "Option<NetworkId>"%string) []); (Field (Some "index"%string) 10%N (Some "u64"%string) [])] 2%N []); (Variant "AccountKey20"%string [(Field (Some "network"%string) 167%N (Some "Option<NetworkId>"%string) []); (Field (Some "key"%string) 102%N (Some "[u8; 20]"%string) [])] 3%N []); (Variant "PalletInstance"%string [(Field None 2%N (Some "u8"%string) [])] 4%N []); (Variant "GeneralIndex"%string [(Field None 60%N (Some "u128"%string) [])] 5%N []); (Variant "GeneralKey"%string [(Field (Some "length"%string) 2%N (Some "u8"%string) []); (Field (Some "data"%string) 1%N (Some "[u8; 32]"%string) [])] 6%N []); (Variant "OnlyChild"%string [] 7%N []); (Variant "Plurality"%string [(Field (Some "id"%string) 169%N (Some "BodyId"%string) []); (Field (Some "part"%string) 170%N (Some "BodyPart"%string) [])] 8%N []); (Variant "GlobalConsensus"%string [(Field None 168%N (Some "NetworkId"%string) [])] 9%N [])]) []).
Definition md_t167 : ty := (Ty ["Option"%string] [("T"%string,(Some 168%N))] (TVariant [(Variant "None"%string [] 0%N []); (Variant "Some"%string [(Field None 168%N None [])] 1%N [])]) []).
Definition md_t168 : ty := (Ty ["xcm"%string; "v3"%string; "junction"%string; "NetworkId"%string] [] (TVariant [(Variant "ByGenesis"%string [(Field None 1%N (Some "[u8; 32]"%string) [])] 0%N []); (Variant "ByFork"%string [(Field (Some "block_number"%string) 11%N (Some "u64"%string) []); (Field (Some "block_hash"%string) 1%N (Some "[u8; 32]"%string) [])] 1%N []); (Variant "Polkadot"%string [] 2%N []); (Variant "Kusama"%string [] 3%N []); (Variant "Westend"%string [] 4%N []); (Variant "Rococo"%string [] 5%N []); (Variant "Wococo"%string [] 6%N []); (Variant "Ethereum"%string [(Field (Some "chain_id"%string) 10%N (Some "u64"%string) [])] 7%N []); (Variant "BitcoinCore"%string [] 8%N []); (Variant "BitcoinCash"%string [] 9%N [])]) []).
Definition md_t169 : ty := (Ty ["xcm"%string; "v3"%string; "junction"%string; "BodyId"%string] [] (TVariant [(Variant "Unit"%string [] 0%N []); (Variant "Moniker"%string [(Field None 17%N (Some "[u8; 4]"%string) [])] 1%N []); (Variant "Index"%string [(Field None 91%N (Some "u32"%string) [])] 2%N []); (Variant "Executive"%string [] 3%N []); (Variant "Technical"%string [] 4%N []); (Variant "Legislative"%string [] 5%N []); (Variant "Judicial"%string [] 6%N []); (Variant "Defense"%string [] 7%N []); (Variant "Administration"%string [] 8%N []); (Variant "Treasury"%string [] 9%N [])]) []).
Definition md_t170 : ty := (Ty ["xcm"%string; "v3"%string; "junction"%string; "BodyPart"%string] [] (TVariant [(Variant "Voice"%string [] 0%N []); (Variant "Members"%string [(Field (Some "count"%string) 91%N (Some "u32"%string) [])] 1%N []); (Variant "Fraction"%string [(Field (Some "nom"%string) 91%N (Some "u32"%string) []); (Field (Some "denom"%string) 91%N (Some "u32"%string) [])] 2%N []); (Variant "AtLeastProportion"%string [(Field (Some "nom"%string) 91%N (Some "u32"%string) []); (Field (Some "denom"%string) 91%N (Some "u32"%string) [])] 3%N []); (Variant "MoreThanProportion"%string [(Field (Some "nom"%string) 91%N (Some "u32"%string) []); (Field (Some "denom"%string) 91%N (Some "u32"%string) [])] 4%N [])]) []).
Definition md_t171 : ty := (Ty ["sp_core"%string; "Void"%string] [] (TVariant []) []).
Definition md_t172 : ty := (Ty ["frame_support"%string; "traits"%string; "schedule"%string; "DispatchTime"%string] [("BlockNumber"%string,(Some 4%N))] (TVariant [(Variant "At"%string [(Field None 4%N (Some "BlockNumber"%string) [])] 0%N []); (Variant "After"%string [(Field None 4%N (Some "BlockNumber"%string) [])] 1%N [])]) []).
Definition md_t173 : ty := (Ty ["pallet_whitelist"%string; "pallet"%string; "Call"%string] [("T"%string,None)] (TVariant [(Variant "whitelist_call"%string [(Field (Some "call_hash"%string) 12%N (Some "PreimageHash"%string) [])] 0%N []); (Variant "remove_whitelisted_call"%string [(Field (Some "call_hash"%string) 12%N (Some "PreimageHash"%string) [])] 1%N []); (Variant "dispatch_whitelisted_call"%string [(Field (Some "call_hash"%string) 12%N (Some "PreimageHash"%string) []); (Field (Some "call_encoded_len"%string) 4%N (Some "u32"%string) []); (Field (Some "call_weight_witness"%string) 9%N (Some "Weight"%string) [])] 2%N []); (Variant "dispatch_whitelisted_call_with_preimage"%string [(Field (Some "call"%string) 79%N (Some "Box<<T as Config>::RuntimeCall>"%string) [])] 3%N [])]) ["Contains one variant per dispatchable that can be called by an extrinsic."%string]).
Definition md_t174 : ty := (Ty ["polkadot_runtime_common"%string; "claims"%string; "pallet"%string; "Call"%string] [("T"%string,None)] (TVariant [(Variant "claim"%string [(Field (Some "dest"%string) 0%N (Some "T::AccountId"%string) []); (Field (Some "ethereum_signature"%string) 175%N (Some "EcdsaSignature"%string) [])] 0%N ["Make a claim to collect your DOTs."%string; ""%string; "The dispatch origin for this call must be _None_."%string; ""%string; "Unsigned Validation:"%string; "A call to claim is deemed valid if the signature provided matches"%string; "the expected signed message of:"%string; ""%string; "> Ethereum Signed Message:"%string; "> (configured prefix string)(address)"%string; ""%string; "and `address` matches the `dest` account."%string; ""%string; "Parameters:"%string; "- `dest`: The destination account to payout the claim."%string; "- `ethereum_signature`: The signature of an ethereum signed message"%string; "   matching the format described above."%string; ""%string; "<weight>"%string; "The weight of this call is invariant over the input parameters."%string; "Weight includes logic to validate unsigned `claim` call."%string; ""%string; "Total Complexity: O(1)"%string; "</weight>"%string]); (Variant "mint_claim"%string [(Field (Some "who"%string) 177%N (Some "EthereumAddress"%string) []); (Field (Some "value"%string) 6%N (Some "BalanceOf<T>"%string) []); (Field (Some "vesting_schedule"%string) 178%N (Some "Option<(BalanceOf<T>, BalanceOf<T>, T::BlockNumber)>"%string) []); (Field (Some "statement"%string) 180%N (Some "Option<StatementKind>"%string) [])] 1%N ["Mint a new claim to collect DOTs."%string; ""%string; "The dispatch origin for this call must be _Root_."%string; ""%string; "Parameters:"%string; "- `who`: The Ethereum address allowed to collect this claim."%string; "- `value`: The number of DOTs that will be claimed."%string; "- `vesting_schedule`: An optional vesting schedule for these DOTs."%string; ""%string; "<weight>"%string; "The weight of this call is invariant over the input parameters."%string; "We assume worst case that both vesting and statement is being inserted."%string; ""%string; "Total Complexity: O(1)"%string; "</weight>"%string]); (Variant "claim_attest"%string [(Field (Some "dest"%string) 0%N (Some "T::AccountId"%string) []); (Field (Some "ethereum_signature"%string) 175%N (Some "EcdsaSignature"%string) []); (Field (Some "statement"%string) 13%N (Some "Vec<u8>"%string) [])] 2%N ["Make a claim to collect your DOTs by signing a statement."%string; ""%string; "The dispatch origin for this call must be _None_."%string; ""%string; "Unsigned Validation:"%string; "A call to `claim_attest` is deemed valid if the signature provided matches"%string; "the expected signed message of:"%string; ""%string; "> Ethereum Signed Message:"%string; "> (configured prefix string)(address)(statement)"%string; ""%string; "and `address` matches the `dest` account; the `statement` must match that which is"%string; "expected according to your purchase arrangement."%string; ""%string; "Parameters:"%string; "- `dest`: The destination account to payout the claim."%string; "- `ethereum_signature`: The signature of an ethereum signed message"%string; "   matching the format described above."%string; "- `statement`: The identity of the statement which is being attested to in the signature."%string; ""%string; "<weight>"%string; "The weight of this call is invariant over the input parameters."%string; "Weight includes logic to validate unsigned `claim_attest` call."%string; ""%string; "Total Complexity: O(1)"%string; "</weight>"%string]); (Variant "attest"%string [(Field (Some "statement"%string) 13%N (Some "Vec<u8>"%string) [])] 3%N ["Attest to a statement, needed to finalize the claims process."%string; ""%string; "WARNING: Insecure unless your chain includes `PrevalidateAttests` as a `SignedExtension`."%string; ""%string; "Unsigned Validation:"%string; "A call to attest is deemed valid if the sender has a `Preclaim` registered"%string; "and provides a `statement` which is expected for the account."%string; ""%string; "Parameters:"%string; "- `statement`: The identity of the statement which is being attested to in the signature."%string; ""%string; "<weight>"%string; "The weight of this call is invariant over the input parameters."%string; "Weight includes logic to do pre-validation on `attest` call."%string; ""%string; "Total Complexity: O(1)"%string; "</weight>"%string]); (Variant "move_claim"%string [(Field (Some "old"%string) 177%N (Some "EthereumAddress"%string) []); (Field (Some "new"%string) 177%N (Some "EthereumAddress"%string) []); (Field (Some "maybe_preclaim"%string) 144%N (Some "Option<T::AccountId>"%string) [])] 4%N [])]) ["Contains one variant per dispatchable that can be called by an extrinsic."%string]).
Definition md_t175 : ty := (Ty ["polkadot_runtime_common"%string; "claims"%string; "EcdsaSignature"%string] [] (TComposite [(Field None 176%N (Some "[u8; 65]"%string) [])]) []).
Definition md_t176 : ty := (Ty [] [] (TArray 65%N 2%N) []).
Definition md_t177 : ty := (Ty ["polkadot_runtime_common"%string; "claims"%string; "EthereumAddress"%string] [] (TComposite [(Field None 102%N (Some "[u8; 20]"%string) [])]) []).
Definition md_t178 : ty := (Ty ["Option"%string] [("T"%string,(Some 179%N))] (TVariant [(Variant "None"%string [] 0%N []); (Variant "Some"%string [(Field None 179%N None [])] 1%N [])]) []).
Definition md_t179 : ty := (Ty [] [] (TTuple [6%N; 6%N; 4%N]) []).
Definition md_t180 : ty := (Ty ["Option"%string] [("T"%string,(Some 181%N))] (TVariant [(Variant "None"%string [] 0%N []); (Variant "Some"%string [(Field None 181%N None [])] 1%N [])]) []).
Definition md_t181 : ty := (Ty ["polkadot_runtime_common"%string; "claims"%string; "StatementKind"%string] [] (TVariant [(Variant "Regular"%string [] 0%N []); (Variant "Saft"%string [] 1%N [])]) []).
Definition md_t182 : ty := (Ty ["pallet_vesting"%string; "pallet"%string; "Call"%string] [("T"%string,None)] (TVariant [(Variant "vest"%string [] 0%N ["Unlock any vested funds of the sender account."%string; ""%string; "The dispatch origin for this call must be _Signed_ and the sender must have funds still"%string; "locked under this pallet."%string; ""%string; "Emits either `VestingCompleted` or `VestingUpdated`."%string; ""%string; "## Complexity"%string; "- `O(1)`."%string]); (Variant "vest_other"%string [(Field (Some "target"%string) 100%N (Some "AccountIdLookupOf<T>"%string) [])] 1%N ["Unlock any vested funds of a `target` account."%string; ""%string; "The dispatch origin for this call must be _Signed_."%string; ""%string; "- `target`: The account whose vested funds should be unlocked. Must have funds still"%string; "locked under this pallet."%string; ""%string; "Emits either `VestingCompleted` or `VestingUpdated`."%string; ""%string; "## Complexity"%string; "- `O(1)`."%string]); (Variant "vested_transfer"%string [(Field (Some "target"%string) 100%N (Some "AccountIdLookupOf<T>"%string) []); (Field (Some "schedule"%string) 183%N (Some "VestingInfo<BalanceOf<T>, T::BlockNumber>"%string) [])] 2%N ["Create a vested transfer."%string; ""%string; "The dispatch origin for this call must be _Signed_."%string; ""%string; "- `target`: The account receiving the vested funds."%string; "- `schedule`: The vesting schedule attached to the transfer."%string; ""%string; "Emits `VestingCreated`."%string; ""%string; "NOTE: This will unlock all schedules through the current block."%string; ""%string; "## Complexity"%string; "- `O(1)`."%string]); (Variant "force_vested_transfer"%string [(Field (Some "source"%string) 100%N (Some "AccountIdLookupOf<T>"%string) []); (Field (Some "target"%string) 100%N (Some "AccountIdLookupOf<T>"%string) []); (Field (Some "schedule"%string) 183%N (Some "VestingInfo<BalanceOf<T>, T::BlockNumber>"%string) [])] 3%N ["Force a vested transfer."%string; ""%string; "The dispatch origin for this call must be _Root_."%string; ""%string; "- `source`: The account whose funds should be transferred."%string; "- `target`: The account that should be transferred the vested funds."%string; "- `schedule`: The vesting schedule attached to the transfer."%string; ""%string; "Emits `VestingCreated`."%string; ""%string; "NOTE: This will unlock all schedules through the current block."%string; ""%string; "## Complexity"%string; "- `O(1)`."%string]); (Variant "merge_schedules"%string [(Field (Some "schedule1_index"%string) 4%N (Some "u32"%string) []); (Field (Some "schedule2_index"%string) 4%N (Some "u32"%string) [])] 4%N ["Merge two vesting schedules together, creating a new vesting schedule that unlocks over"%string; "the highest possible start and end blocks. If both schedules have already started the"%string; "current block will be used as the schedule start; with the caveat that if one schedule"%string; "is finished by the current block, the other will be treated as the new merged schedule,"%string; "unmodified."%string; ""%string; "NOTE: If `schedule1_index == schedule2_index` this is a no-op."%string; "NOTE: This will unlock all schedules through the current block prior to merging."%string; "NOTE: If both schedules have ended by the current block, no new schedule will be created"%string; "and both will be removed."%string; ""%string; "Merged schedule attributes:"%string; "- `starting_block`: `MAX(schedule1.starting_block, scheduled2.starting_block,"%string; "  current_block)`."%string; "- `ending_block`: `MAX(schedule1.ending_block, schedule2.ending_block)`."%string; "- `locked`: `schedule1.locked_at(current_block) + schedule2.locked_at(current_block)`."%string; ""%string; "The dispatch origin for this call must be _Signed_."%string; ""%string; "- `schedule1_index`: index of the first schedule to merge."%string; "- `schedule2_index`: index of the second schedule to merge."%string])]) ["Contains one variant per dispatchable that can be called by an extrinsic."%string]).
Definition md_t183 : ty := (Ty ["pallet_vesting"%string; "vesting_info"%string; "VestingInfo"%string] [("Balance"%string,(Some 6%N)); ("BlockNumber"%string,(Some 4%N))] (TComposite [(Field (Some "locked"%string) 6%N (Some "Balance"%string) []); (Field (Some "per_block"%string) 6%N (Some "Balance"%string) []); (Field (Some "starting_block"%string) 4%N (Some "BlockNumber"%string) [])]) []).
Definition md_t184 : ty := (Ty ["pallet_utility"%string; "pallet"%string; "Call"%string] [("T"%string,None)] (TVariant [(Variant "batch"%string [(Field (Some "calls"%string) 185%N (Some "Vec<<T as Config>::RuntimeCall>"%string) [])] 0%N ["Send a batch of dispatch calls."%string; ""%string; "May be called from any origin except `None`."%string; ""%string; "- `calls`: The calls to be dispatched from the same origin. The number of call must not"%string; "  exceed the constant: `batched_calls_limit` (available in constant metadata)."%string; ""%string; "If origin is root then the calls are dispatched without checking origin filter. (This"%string; "includes bypassing `frame_system::Config::BaseCallFilter`)."%string; ""%string; "## Complexity"%string; "- O(C) where C is the number of calls to be batched."%string; ""%string; "This will return `Ok` in all circumstances. To determine the success of the batch, an"%string; "event is deposited. If a call failed and the batch was interrupted, then the"%string; "`BatchInterrupted` event is deposited, along with the number of successful calls made"%string; "and the error of the failed call. If all were successful, then the `BatchCompleted`"%string; "event is deposited."%string]); (Variant "as_derivative"%string [(Field (Some "index"%string) 77%N (Some "u16"%string) []); (Field (Some "call"%string) 79%N (Some "Box<<T as Config>::RuntimeCall>"%string) [])] 1%N ["Send a call through an indexed pseudonym of the sender."%string; ""%string; "Filter from origin are passed along. The call will be dispatched with an origin which"%string; "use the same filter as the origin of this call."%string; ""%string; "NOTE: If you need to ensure that any account-based filtering is not honored (i.e."%string; "because you expect `proxy` to have been used prior in the call stack and you do not want"%string; "the call restrictions to apply to any sub-accounts), then use `as_multi_threshold_1`"%string; "in the Multisig pallet instead."%string; ""%string; "NOTE: Prior to version *12, this was called `as_limited_sub`."%string; ""%string; "The dispatch origin for this call must be _Signed_."%string]); (Variant "batch_all"%string [(Field (Some "calls"%string) 185%N (Some "Vec<<T as Config>::RuntimeCall>"%string) [])] 2%N ["Send a batch of dispatch calls and atomically execute them."%string; "The whole transaction will rollback and fail if any of the calls failed."%string; ""%string; "May be called from any origin except `None`."%string; ""%string; "- `calls`: The calls to be dispatched from the same origin. The number of call must not"%string; "  exceed the constant: `batched_calls_limit` (available in constant metadata)."%string; ""%string; "If origin is root then the calls are dispatched without checking origin filter. (This"%string; "includes bypassing `frame_system::Config::BaseCallFilter`)."%string; ""%string; "## Complexity"%string; "- O(C) where C is the number of calls to be batched."%string]); (Variant "dispatch_as"%string [(Field (Some "as_origin"%string) 156%N (Some "Box<T::PalletsOrigin>"%string) []); (Field (Some "call"%string) 79%N (Some "Box<<T as Config>::RuntimeCall>"%string) [])] 3%N ["Dispatches a function call with a provided origin."%string; ""%string; "The dispatch origin for this call must be _Root_."%string; ""%string; "## Complexity"%string; "- O(1)."%string]); (Variant "force_batch"%string [(Field (Some "calls"%string) 185%N (Some "Vec<<T as Config>::RuntimeCall>"%string) [])] 4%N ["Send a batch of dispatch calls."%string; "Unlike `batch`, it allows errors and won't interrupt."%string; ""%string; "May be called from any origin except `None`."%string; ""%string; "- `calls`: The calls to be dispatched from the same origin. The number of call must not"%string; "  exceed the constant: `batched_calls_limit` (available in constant metadata)."%string; ""%string; "If origin is root then the calls are dispatch without checking origin filter. (This"%string; "includes bypassing `frame_system::Config::BaseCallFilter`)."%string; ""%string; "## Complexity"%string; "- O(C) where C is the number of calls to be batched."%string]); (Variant "with_weight"%string [(Field (Some "call"%string) 79%N (Some "Box<<T as Config>::RuntimeCall>"%string) []); (Field (Some "weight"%string) 9%N (Some "Weight"%string) [])] 5%N ["Dispatch a function call with a specified weight."%string; ""%string; "This function does not check the weight of the call, and instead allows the"%string; "Root origin to specify the weight of the call."%string; ""%string; "The dispatch origin for this call must be _Root_."%string])]) ["Contains one variant per dispatchable that can be called by an extrinsic."%string]).
Definition md_t185 : ty := (Ty [] [] (TSequence 79%N) []).
Definition md_t186 : ty := (Ty ["pallet_identity"%string; "pallet"%string; "Call"%string] [("T"%string,None)] (TVariant [(Variant "add_registrar"%string [(Field (Some "account"%string) 100%N (Some "AccountIdLookupOf<T>"%string) [])] 0%N ["Add a registrar to the system."%string; ""%string; "The dispatch origin for this call must be `T::RegistrarOrigin`."%string; ""%string; "- `account`: the account of the registrar."%string; ""%string; "Emits `RegistrarAdded` if successful."%string; ""%string; "## Complexity"%string; "- `O(R)` where `R` registrar-count (governance-bounded and code-bounded)."%string]); (Variant "set_identity"%string [(Field (Some "info"%string) 187%N (Some "Box<IdentityInfo<T::MaxAdditionalFields>>"%string) [])] 1%N ["Set an account's identity information and reserve the appropriate deposit."%string; ""%string; "If the account already has identity information, the deposit is taken as part payment"%string; "for the new deposit."%string; ""%string; "The dispatch origin for this call must be _Signed_."%string; ""%string; "- `info`: The identity information."%string; ""%string; "Emits `IdentitySet` if successful."%string; ""%string; "## Complexity"%string; "- `O(X + X' + R)`"%string; "  - where `X` additional-field-count (deposit-bounded and code-bounded)"%string; "  - where `R` judgements-count (registrar-count-bounded)"%string]); (Variant "set_subs"%string [(Field (Some "subs"%string) 222%N (Some "Vec<(T::AccountId, Data)>"%string) [])] 2%N ["Set the sub-accounts of the sender."%string; ""%string; "Payment: Any aggregate balance reserved by previous `set_subs` calls will be returned"%string; "and an amount `SubAccountDeposit` will be reserved for each item in `subs`."%string; ""%string; "The dispatch origin for this call must be _Signed_ and the sender must have a registered"%string; "identity."%string; ""%string; "- `subs`: The identity's (new) sub-accounts."%string; ""%string; "## Complexity"%string; "- `O(P + S)`"%string; "  - where `P` old-subs-count (hard- and deposit-bounded)."%string; "  - where `S` subs-count (hard- and deposit-bounded)."%string]); (Variant "clear_identity"%string [] 3%N ["Clear an account's identity info and all sub-accounts and return all deposits."%string; ""%string; "Payment: All reserved balances on the account are returned."%string; ""%string; "The dispatch origin for this call must be _Signed_ and the sender must have a registered"%string; "identity."%string; ""%string; "Emits `IdentityCleared` if successful."%string; ""%string; "## Complexity"%string; "- `O(R + S + X)`"%string; "  - where `R` registrar-count (governance-bounded)."%string; "  - where `S` subs-count (hard- and deposit-bounded)."%string; "  - where `X` additional-field-count (deposit-bounded and code-bounded)."%string]); (Variant "request_judgement"%string [(Field (Some "reg_index"%string) 91%N (Some "RegistrarIndex"%string) []); (Field (Some "max_fee"%string) 60%N (Some "BalanceOf<T>"%string) [])] 4%N ["Request a judgement from a registrar."%string; ""%string; "Payment: At most `max_fee` will be reserved for payment to the registrar if judgement"%string; "given."%string; ""%string; "The dispatch origin for this call must be _Signed_ and the sender must have a"%string; "registered identity."%string; ""%string; "- `reg_index`: The index of the registrar whose judgement is requested."%string; "- `max_fee`: The maximum fee that may be paid. This should just be auto-populated as:"%string; ""%string; "```nocompile"%string; "Self::registrars().get(reg_index).unwrap().fee"%string; "```"%string; ""%string; "Emits `JudgementRequested` if successful."%string; ""%string; "## Complexity"%string; "- `O(R + X)`."%string; "  - where `R` registrar-count (governance-bounded)."%string; "  - where `X` additional-field-count (deposit-bounded and code-bounded)."%string]); (Variant "cancel_request"%string [(Field (Some "reg_index"%string) 4%N (Some "RegistrarIndex"%string) [])] 5%N ["Cancel a previous request."%string; ""%string; "Payment: A previously reserved deposit is returned on success."%string; ""%string; "The dispatch origin for this call must be _Signed_ and the sender must have a"%string; "registered identity."%string; ""%string; "- `reg_index`: The index of the registrar whose judgement is no longer requested."%string; ""%string; "Emits `JudgementUnrequested` if successful."%string; ""%string; "## Complexity"%string; "- `O(R + X)`."%string; "  - where `R` registrar-count (governance-bounded)."%string; "  - where `X` additional-field-count (deposit-bounded and code-bounded)."%string]); (Variant "set_fee"%string [(Field (Some "index"%string) 91%N (Some "RegistrarIndex"%string) []); (Field (Some "fee"%string) 60%N (Some "BalanceOf<T>"%string) [])] 6%N ["Set the fee required for a judgement to be requested from a registrar."%string; ""%string; "The dispatch origin for this call must be _Signed_ and the sender must be the account"%string; "of the registrar whose index is `index`."%string; ""%string; "- `index`: the index of the registrar whose fee is to be set."%string; "- `fee`: the new fee."%string; ""%string; "## Complexity"%string; "- `O(R)`."%string; "  - where `R` registrar-count (governance-bounded)."%string]); (Variant "set_account_id"%string [(Field (Some "index"%string) 91%N (Some "RegistrarIndex"%string) []); (Field (Some "new"%string) 100%N (Some "AccountIdLookupOf<T>"%string) [])] 7%N ["Change the account associated with a registrar."%string; ""%string; "The dispatch origin for this call must be _Signed_ and the sender must be the account"%string; "of the registrar whose index is `index`."%string; ""%string; "- `index`: the index of the registrar whose fee is to be set."%string; "- `new`: the new account ID."%string; ""%string; "## Complexity"%string; "- `O(R)`."%string; "  - where `R` registrar-count (governance-bounded)."%string]); (Variant "set_fields"%string [(Field (Some "index"%string) 91%N (Some "RegistrarIndex"%string) []); (Field (Some "fields"%string) 224%N (Some "IdentityFields"%string) [])] 8%N ["Set the field information for a registrar."%string; ""%string; "The dispatch origin for this call must be _Signed_ and the sender must be the account"%string; "of the registrar whose index is `index`."%string; ""%string; "- `index`: the index of the registrar whose fee is to be set."%string; "- `fields`: the fields that the registrar concerns themselves with."%string; ""%string; "## Complexity"%string; "- `O(R)`."%string; "  - where `R` registrar-count (governance-bounded)."%string]); (Variant "provide_judgement"%string [(Field (Some "reg_index"%string) 91%N (Some "RegistrarIndex"%string) []); (Field (Some "target"%string) 100%N (Some "AccountIdLookupOf<T>"%string) []); (Field (Some "judgement"%string) 226%N (Some "Judgement<BalanceOf<T>>"%string) []); (Field (Some "identity"%string) 12%N (Some "T::Hash"%string) [])] 9%N ["Provide a judgement for an account's identity."%string; ""%string; "The dispatch origin for this call must be _Signed_ and the sender must be the account"%string; "of the registrar whose index is `reg_index`."%string; ""%string; "- `reg_index`: the index of the registrar whose judgement is being made."%string; "- `target`: the account whose identity the judgement is upon. This must be an account"%string; "  with a registered identity."%string; "- `judgement`: the judgement of the registrar of index `reg_index` about `target`."%string; "- `identity`: The hash of the [`IdentityInfo`] for that the judgement is provided."%string; ""%string; "Emits `JudgementGiven` if successful."%string; ""%string; "## Complexity"%string; "- `O(R + X)`."%string; "  - where `R` registrar-count (governance-bounded)."%string; "  - where `X` additional-field-count (deposit-bounded and code-bounded)."%string]); (Variant "kill_identity"%string [(Field (Some "target"%string) 100%N (Some "AccountIdLookupOf<T>"%string) [])] 10%N ["Remove an account's identity and sub-account information and slash the deposits."%string; ""%string; "Payment: Reserved balances from `set_subs` and `set_identity` are slashed and handled by"%string; "`Slash`. Verification request deposits are not returned; they should be cancelled"%string; "manually using `cancel_request`."%string; ""%string; "The dispatch origin for this call must match `T::ForceOrigin`."%string; ""%string; "- `target`: the account whose identity the judgement is upon. This must be an account"%string; "  with a registered identity."%string; ""%string; "Emits `IdentityKilled` if successful."%string; ""%string; "## Complexity"%string; "- `O(R + S + X)`"%string; "  - where `R` registrar-count (governance-bounded)."%string; "  - where `S` subs-count (hard- and deposit-bounded)."%string; "  - where `X` additional-field-count (deposit-bounded and code-bounded)."%string]); (Variant "add_sub"%string [(Field (Some "sub"%string) 100%N (Some "AccountIdLookupOf<T>"%string) []); (Field (Some "data"%string) 190%N (Some "Data"%string) [])] 11%N ["Add the given account to the sender's subs."%string; ""%string; "Payment: Balance reserved by a previous `set_subs` call for one sub will be repatriated"%string; "to the sender."%string; ""%string; "The dispatch origin for this call must be _Signed_ and the sender must have a registered"%string; "sub identity of `sub`."%string]); (Variant "rename_sub"%string [(Field (Some "sub"%string) 100%N (Some "AccountIdLookupOf<T>"%string) []); (Field (Some "data"%string) 190%N (Some "Data"%string) [])] 12%N ["Alter the associated name of the given sub-account."%string; ""%string; "The dispatch origin for this call must be _Signed_ and the sender must have a registered"%string; "sub identity of `sub`."%string]); (Variant "remove_sub"%string [(Field (Some "sub"%string) 100%N (Some "AccountIdLookupOf<T>"%string) [])] 13%N ["Remove the given account from the sender's subs."%string; ""%string; "Payment: Balance reserved by a previous `set_subs` call for one sub will be repatriated"%string; "to the sender."%string; ""%string; "The dispatch origin for this call must be _Signed_ and the sender must have a registered"%string; "sub identity of `sub`."%string]); (Variant "quit_sub"%string [] 14%N ["Remove the sender as a sub-account."%string; ""%string; "Payment: Balance reserved by a previous `set_subs` call for one sub will be repatriated"%string; "to the sender (*not* the original depositor)."%string; ""%string; "The dispatch origin for this call must be _Signed_ and the sender must have a registered"%string; "super-identity."%string; ""%string; "NOTE: This should not normally be used, but is provided in the case that the non-"%string; "controller of an account is maliciously registered as a sub-account."%string])]) ["Identity pallet declaration."%string]).
Definition md_t187 : ty := (Ty ["pallet_identity"%string; "types"%string; "IdentityInfo"%string] [("FieldLimit"%string,None)] (TComposite [(Field (Some "additional"%string) 188%N (Some "BoundedVec<(Data, Data), FieldLimit>"%string) []); (Field (Some "display"%string) 190%N (Some "Data"%string) []); (Field (Some "legal"%string) 190%N (Some "Data"%string) []); (Field (Some "web"%string) 190%N (Some "Data"%string) []); (Field (Some "riot"%string) 190%N (Some "Data"%string) []); (Field (Some "email"%string) 190%N (Some "Data"%string) []); (Field (Some "pgp_fingerprint"%string) 221%N (Some "Option<[u8; 20]>"%string) []); (Field (Some "image"%string) 190%N (Some "Data"%string) []); (Field (Some "twitter"%string) 190%N (Some "Data"%string) [])]) []).
Definition md_t188 : ty := (Ty ["bounded_collections"%string; "bounded_vec"%string; "BoundedVec"%string] [("T"%string,(Some 189%N)); ("S"%string,None)] (TComposite [(Field None 220%N (Some "Vec<T>"%string) [])]) []).
Definition md_t189 : ty := (Ty [] [] (TTuple [190%N; 190%N]) []).
Definition md_t190 : ty := (Ty ["pallet_identity"%string; "types"%string; "Data"%string] [] (TVariant [(Variant "None"%string [] 0%N []); (Variant "Raw0"%string [(Field None 191%N None [])] 1%N []); (Variant "Raw1"%string [(Field None 192%N None [])] 2%N []); (Variant "Raw2"%string [(Field None 193%N None [])] 3%N []); (Variant "Raw3"%string [(Field None 194%N None [])] 4%N []); (Variant "Raw4"%string [(Field None 17%N None [])] 5%N []); (Variant "Raw5"%string [(Field None 195%N None [])] 6%N []); (Variant "Raw6"%string [(Field None 196%N None [])] 7%N []); (Variant "Raw7"%string [(Field None 197%N None [])] 8%N []); (Variant "Raw8"%string [(Field None 198%N None [])] 9%N []); (Variant "Raw9"%string [(Field None 199%N None [])] 10%N []); (Variant "Raw10"%string [(Field None 200%N None [])] 11%N []); (Variant "Raw11"%string [(Field None 201%N None [])] 12%N []); (Variant "Raw12"%string [(Field None 202%N None [])] 13%N []); (Variant "Raw13"%string [(Field None 203%N None [])] 14%N []); (Variant "Raw14"%string [(Field None 204%N None [])] 15%N []); (Variant "Raw15"%string [(Field None 205%N None [])] 16%N []); (Variant "Raw16"%string [(Field None 47%N None [])] 17%N []); (Variant "Raw17"%string [(Field None 206%N None [])] 18%N []); (Variant "Raw18"%string [(Field None 207%N None [])] 19%N []); (Variant "Raw19"%string [(Field None 208%N None [])] 20%N []); (Variant "Raw20"%string [(Field None 102%N None [])] 21%N []); (Variant "Raw21"%string [(Field None 209%N None [])] 22%N []); (Variant "Raw22"%string [(Field None 210%N None [])] 23%N []); (Variant "Raw23"%string [(Field None 211%N None [])] 24%N []); (Variant "Raw24"%string [(Field None 212%N None [])] 25%N []); (Variant "Raw25"%string [(Field None 213%N None [])] 26%N []); (Variant "Raw26"%string [(Field None 214%N None [])] 27%N []); (Variant "Raw27"%string [(Field None 215%N None [])] 28%N []); (Variant "Raw28"%string [(Field None 216%N None [])] 29%N []); (Variant "Raw29"%string [(Field None 217%N None [])] 30%N []); (Variant "Raw30"%string [(Field None 218%N None [])] 31%N []); (Variant "Raw31"%string [(Field None 219%N None [])] 32%N []); (Variant "Raw32"%string [(Field None 1%N None [])] 33%N []); (Variant "BlakeTwo256"%string [(Field None 1%N None [])] 34%N []); (Variant "Sha256"%string [(Field None 1%N None [])] 35%N []); (Variant "Keccak256"%string [(Field None 1%N None [])] 36%N []); (Variant "ShaThree256"%string [(Field None 1%N None [])] 37%N [])]) []).
Definition md_t191 : ty := (Ty [] [] (TArray 0%N 2%N) []).
Definition md_t192 : ty := (Ty [] [] (TArray 1%N 2%N) []).
Definition md_t193 : ty := (Ty [] [] (TArray 2%N 2%N) []).
Definition md_t194 : ty := (Ty [] [] (TArray 3%N 2%N) []).
Definition md_t195 : ty := (Ty [] [] (TArray 5%N 2%N) []).
Definition md_t196 : ty := (Ty [] [] (TArray 6%N 2%N) []).
Definition md_t197 : ty := (Ty [] [] (TArray 7%N 2%N) []).
Definition md_t198 : ty := (Ty [] [] (TArray 8%N 2%N) []).
Definition md_t199 : ty := (Ty [] [] (TArray 9%N 2%N) []).
Definition md_t200 : ty := (Ty [] [] (TArray 10%N 2%N) []).
Definition md_t201 : ty := (Ty [] [] (TArray 11%N 2%N) []).
Definition md_t202 : ty := (Ty [] [] (TArray 12%N 2%N) []).
Definition md_t203 : ty := (Ty [] [] (TArray 13%N 2%N) []).
Definition md_t204 : ty := (Ty [] [] (TArray 14%N 2%N) []).
Definition md_t205 : ty := (Ty [] [] (TArray 15%N 2%N) []).
Definition md_t206 : ty := (Ty [] [] (TArray 17%N 2%N) []).
Definition md_t207 : ty := (Ty [] [] (TArray 18%N 2%N) []).
Definition md_t208 : ty := (Ty [] [] (TArray 19%N 2%N) []).
Definition md_t209 : ty := (Ty [] [] (TArray 21%N 2%N) []).
Definition md_t210 : ty := (Ty [] [] (TArray 22%N 2%N) []).
Definition md_t211 : ty := (Ty [] [] (TArray 23%N 2%N) []).
Definition md_t212 : ty := (Ty [] [] (TArray 24%N 2%N) []).
Definition md_t213 : ty := (Ty [] [] (TArray 25%N 2%N) []).
Definition md_t214 : ty := (Ty [] [] (TArray 26%N 2%N) []).
Definition md_t215 : ty := (Ty [] [] (TArray 27%N 2%N) []).
Definition md_t216 : ty := (Ty [] [] (TArray 28%N 2%N) []).
Definition md_t217 : ty := (Ty [] [] (TArray 29%N 2%N) []).
Definition md_t218 : ty := (Ty [] [] (TArray 30%N 2%N) []).
Definition md_t219 : ty := (Ty [] [] (TArray 31%N 2%N) []).
Definition md_t220 : ty := (Ty [] [] (TSequence 189%N) []).
Definition md_t221 : ty := (Ty ["Option"%string] [("T"%string,(Some 102%N))] (TVariant [(Variant "None"%string [] 0%N []); (Variant "Some"%string [(Field None 102%N None [])] 1%N [])]) []).
Definition md_t222 : ty := (Ty [] [] (TSequence 223%N) []).
Definition md_t223 : ty := (Ty [] [] (TTuple [0%N; 190%N]) []).
Definition md_t224 : ty := (Ty ["pallet_identity"%string; "types"%string; "BitFlags"%string] [("T"%string,(Some 225%N))] (TComposite [(Field None 11%N (Some "IdentityField"%string) [])]) []).
Definition md_t225 : ty := (Ty ["pallet_identity"%string; "types"%string; "IdentityField"%string] [] (TVariant [(Variant "Display"%string [] 1%N []); (Variant "Legal"%string [] 2%N []); (Variant "Web"%string [] 4%N []); (Variant "Riot"%string [] 8%N []); (Variant "Email"%string [] 16%N []); (Variant "PgpFingerprint"%string [] 32%N []); (Variant "Image"%string [] 64%N []); (Variant "Twitter"%string [] 128%N [])]) []).
Definition md_t226 : ty := (Ty ["pallet_identity"%string; "types"%string; "Judgement"%string] [("Balance"%string,(Some 6%N))] (TVariant [(Variant "Unknown"%string [] 0%N []); (Variant "FeePaid"%string [(Field None 6%N (Some "Balance"%string) [])] 1%N []); (Variant "Reasonable"%string [] 2%N []); (Variant "KnownGood"%string [] 3%N []); (Variant "OutOfDate"%string [] 4%N []); (Variant "LowQuality"%string [] 5%N []); (Variant "Erroneous"%string [] 6%N [])]) []).
Definition md_t227 : ty := (Ty ["pallet_proxy"%string; "pallet"%string; "Call"%string] [("T"%string,None)] (TVariant [(Variant "proxy"%string [(Field (Some "real"%string) 100%N (Some "AccountIdLookupOf<T>"%string) []); (Field (Some "force_proxy_type"%string) 228%N (Some "Option<T::ProxyType>"%string) []); (Field (Some "call"%string) 79%N (Some "Box<<T as Config>::RuntimeCall>"%string) [])] 0%N ["Dispatch the given `call` from an account that the sender is authorised for through"%string; "`add_proxy`."%string; ""%string; "The dispatch origin for this call must be _Signed_."%string; ""%string; "Parameters:"%string; "- `real`: The account that the proxy will make a call on behalf of."%string; "- `force_proxy_type`: Specify the exact proxy type to be used and checked for this call."%string; "- `call`: The call to be made by the `real` account."%string]); (Variant "add_proxy"%string [(Field (Some "delegate"%string) 100%N (Some "AccountIdLookupOf<T>"%string) []); (Field (Some "proxy_type"%string) 229%N (Some "T::ProxyType"%string) []); (Field (Some "delay"%string) 4%N (Some "T::BlockNumber"%string) [])] 1%N ["Register a proxy account for the sender that is able to make calls on its behalf."%string; ""%string; "The dispatch origin for this call must be _Signed_."%string; ""%string; "Parameters:"%string; "- `proxy`: The account that the `caller` would like to make a proxy."%string; "- `proxy_type`: The permissions allowed for this proxy account."%string; "- `delay`: The announcement period required of the initial proxy. Will generally be"%string; "zero."%string]); (Variant "remove_proxy"%string [(Field (Some "delegate"%string) 100%N (Some "AccountIdLookupOf<T>"%string) []); (Field (Some "proxy_type"%string) 229%N (Some "T::ProxyType"%string) []); (Field (Some "delay"%string) 4%N (Some "T::BlockNumber"%string) [])] 2%N ["Unregister a proxy account for the sender."%string; ""%string; "The dispatch origin for this call must be _Signed_."%string; ""%string; "Parameters:"%string; "- `proxy`: The account that the `caller` would like to remove as a proxy."%string; "- `proxy_type`: The permissions currently enabled for the removed proxy account."%string]); (Variant "remove_proxies"%string [] 3%N ["Unregister all proxy accounts for the sender."%string; ""%string; "The dispatch origin for this call must be _Signed_."%string; ""%string; "WARNING: This may be called on accounts created by `pure`, however if done, then"%string; "the unreserved fees will be inaccessible. **All access to this account will be lost.**"%string]); (Variant "create_pure"%string [(Field (Some "proxy_type"%string) 229%N (Some "T::ProxyType"%string) []); (Field (Some "delay"%string) 4%N (Some "T::BlockNumber"%string) []); (Field (Some "index"%string) 77%N (Some "u16"%string) [])] 4%N ["Spawn a fresh new account that is guaranteed to be otherwise inaccessible, and"%string; "initialize it with a proxy of `proxy_type` for `origin` sender."%string; ""%string; "Requires a `Signed` origin."%string; ""%string; "- `proxy_type`: The type of the proxy that the sender will be registered as over the"%string; "new account. This will almost always be the most permissive `ProxyType` possible to"%string; "allow for maximum flexibility."%string; "- `index`: A disambiguation index, in case this is called multiple times in the same"%string; "transaction (e.g. with `utility::batch`). Unless you're using `batch` you probably just"%string; "want to use `0`."%string; "- `delay`: The announcement period required of the initial proxy. Will generally be"%string; "zero."%string; ""%string; "Fails with `Duplicate` if this has already been called in this transaction, from the"%string; "same sender, with the same parameters."%string; ""%string; "Fails if there are insufficient funds to pay for deposit."%string]); (Variant "kill_pure"%string [(Field (Some "spawner"%string) 100%N (Some "AccountIdLookupOf<T>"%string) []); (Field (Some "proxy_type"%string) 229%N (Some "T::ProxyType"%string) []); (Field (Some "index"%string) 77%N (Some "u16"%string) []); (Field (Some "height"%string) 91%N (Some "T::BlockNumber"%string) []); (Field (Some "ext_index"%string) 91%N (Some "u32"%string) [])] 5%N ["Removes a previously spawned pure proxy."%string; ""%string; "WARNING: **All access to this account will be lost.** Any funds held in it will be"%string; "inaccessible."%string; ""%string; "Requires a `Signed` origin, and the sender account must have been created by a call to"%string; "`pure` with corresponding parameters."%string; ""%string; "- `spawner`: The account that originally called `pure` to create this account."%string; "- `index`: The disambiguation index originally passed to `pure`. Probably `0`."%string; "- `proxy_type`: The proxy type originally passed to `pure`."%string; "- `height`: The height of the chain when the call to `pure` was processed."%string; "- `ext_index`: The extrinsic index in which the call to `pure` was processed."%string; ""%string; "Fails with `NoPermission` in case the caller is not a previously created pure"%string; "account whose `pure` call has corresponding parameters."%string]); (Variant "announce"%string [(Field (Some "real"%string) 100%N (Some "AccountIdLookupOf<T>"%string) []); (Field (Some "call_hash"%string) 12%N (Some "CallHashOf<T>"%string) [])] 6%N ["Publish the hash of a proxy-call that will be made in the future."%string; ""%string; "This must be called some number of blocks before the corresponding `proxy` is attempted"%string; "if the delay associated with the proxy relationship is greater than zero."%string; ""%string; "No more than `MaxPending` announcements may be made at any one time."%string; ""%string; "This will take a deposit of `AnnouncementDepositFactor` as well as"%string; "`AnnouncementDepositBase` if there are no other pending announcements."%string; ""%string; "The dispatch origin for this call must be _Signed_ and a proxy of `real`."%string; ""%string; "Parameters:"%string; "- `real`: The account that the proxy will make a call on behalf of."%string; "- `call_hash`: The hash of the call to be made by the `real` account."%string]); (Variant "remove_announcement"%string [(Field (Some "real"%string) 100%N (Some "AccountIdLookupOf<T>"%string) []); (Field (Some "call_hash"%string) 12%N (Some "CallHashOf<T>"%string) [])] 7%N ["Remove a given announcement."%string; ""%string; "May be called by a proxy account to remove a call they previously announced and return"%string; "the deposit."%string; ""%string; "The dispatch origin for this call must be _Signed_."%string; ""%string; "Parameters:"%string; "- `real`: The account that the proxy will make a call on behalf of."%string; "- `call_hash`: The hash of the call to be made by the `real` account."%string]); (Variant "reject_announcement"%string [(Field (Some "delegate"%string) 100%N (Some "AccountIdLookupOf<T>"%string) []); (Field (Some "call_hash"%string) 12%N (Some "CallHashOf<T>"%string) [])] 8%N ["Remove the given announcement of a delegate."%string; ""%string; "May be called by a target (proxied) account to remove a call that one of their delegates"%string; "(`delegate`) has announced they want to execute. The deposit is returned."%string; ""%string; "The dispatch origin for this call must be _Signed_."%string; ""%string; "Parameters:"%string; "- `delegate`: The account that previously announced the call."%string; "- `call_hash`: The hash of the call to be made."%string]); (Variant "proxy_announced"%string [(Field (Some "delegate"%string) 100%N (Some "AccountIdLookupOf<T>"%string) []); (Field (Some "real"%string) 100%N (Some "AccountIdLookupOf<T>"%string) []); (Field (Some "force_proxy_type"%string) 228%N (Some "Option<T::ProxyType>"%string) []); (Field (Some "call"%string) 79%N (Some "Box<<T as Config>::RuntimeCall>"%string) [])] 9%N ["Dispatch the given `call` from an account that the sender is authorized for through"%string; "`add_proxy`."%string; ""%string; "Removes any corresponding announcement(s)."%string; ""%string; "The dispatch origin for this call must be _Signed_."%string; ""%string; "Parameters:"%string; "- `real`: The account that the proxy will make a call on behalf of."%string; "- `force_proxy_type`: Specify the exact proxy type to be used and checked for this call."%string; "- `call`: The call to be made by the `real` account."%string])]) ["Contains one variant per dispatchable that can be called by an extrinsic."%string]).
Definition md_t228 : ty := (Ty ["Option"%string] [("T"%string,(Some 229%N))] (TVariant [(Variant "None"%string [] 0%N []); (Variant "Some"%string [(Field None 229%N None [])] 1%N [])]) []).
Definition md_t229 : ty := (Ty ["polkadot_runtime"%string; "ProxyType"%string] [] (TVariant [(Variant "Any"%string [] 0%N []); (Variant "NonTransfer"%string [] 1%N []); (Variant "Governance"%string [] 2%N []); (Variant "Staking"%string [] 3%N []); (Variant "IdentityJudgement"%string [] 5%N []); (Variant "CancelProxy"%string [] 6%N []); (Variant "Auction"%string [] 7%N []); (Variant "NominationPools"%string [] 8%N [])]) []).
Definition md_t230 : ty := (Ty ["pallet_multisig"%string; "pallet"%string; "Call"%string] [("T"%string,None)] (TVariant [(Variant "as_multi_threshold_1"%string [(Field (Some "other_signatories"%string) 104%N (Some "Vec<T::AccountId>"%string) []); (Field (Some "call"%string) 79%N (Some "Box<<T as Config>::RuntimeCall>"%string) [])] 0%N ["Immediately dispatch a multi-signature call using a single approval from the caller."%string; ""%string; "The dispatch origin for this call must be _Signed_."%string; ""%string; "- `other_signatories`: The accounts (other than the sender) who are part of the"%string; "multi-signature, but do not participate in the approval process."%string; "- `call`: The call to be executed."%string; ""%string; "Result is equivalent to the dispatched result."%string; ""%string; "## Complexity"%string; "O(Z + C) where Z is the length of the call and C its execution weight."%string]); (Variant "as_multi"%string [(Field (Some "threshold"%string) 77%N (Some "u16"%string) []); (Field (Some "other_signatories"%string) 104%N (Some "Vec<T::AccountId>"%string) []); (Field (Some "maybe_timepoint"%string) 231%N (Some "Option<Timepoint<T::BlockNumber>>"%string) []); (Field (Some "call"%string) 79%N (Some "Box<<T as Config>::RuntimeCall>"%string) []); (Field (Some "max_weight"%string) 9%N (Some "Weight"%string) [])] 1%N ["Register approval for a dispatch to be made from a deterministic composite account if"%string; "approved by a total of `threshold - 1` of `other_signatories`."%string; ""%string; "If there are enough, then dispatch the call."%string; ""%string; "Payment: `DepositBase` will be reserved if this is the first approval, plus"%string; "`threshold` times `DepositFactor`. It is returned once this dispatch happens or"%string; "is cancelled."%string; ""%string; "The dispatch origin for this call must be _Signed_."%string; ""%string; "- `threshold`: The total number of approvals for this dispatch before it is executed."%string; "- `other_signatories`: The accounts (other than the sender) who can approve this"%string; "dispatch. May not be empty."%string; "- `maybe_timepoint`: If this is the first approval, then this must be `None`. If it is"%string; "not the first approval, then it must be `Some`, with the timepoint (block number and"%string; "transaction index) of the first approval transaction."%string; "- `call`: The call to be executed."%string; ""%string; "NOTE: Unless this is the final approval, you will generally want to use"%string; "`approve_as_multi` instead, since it only requires a hash of the call."%string; ""%string; "Result is equivalent to the dispatched result if `threshold` is exactly `1`. Otherwise"%string; "on success, result is `Ok` and the result from the interior call, if it was executed,"%string; "may be found in the deposited `MultisigExecuted` event."%string; ""%string; "## Complexity"%string; "- `O(S + Z + Call)`."%string; "- Up to one balance-reserve or unreserve operation."%string; "- One passthrough operation, one insert, both `O(S)` where `S` is the number of"%string; "  signatories. `S` is capped by `MaxSignatories`, with weight being proportional."%string; "- One call encode & hash, both of complexity `O(Z)` where `Z` is tx-len."%string; "- One encode & hash, both of complexity `O(S)`."%string; "- Up to one binary search and insert (`O(logS + S)`)."%string; "- I/O: 1 read `O(S)`, up to 1 mutate `O(S)`. Up to one remove."%string; "- One event."%string; "- The weight of the `call`."%string; "- Storage: inserts one item, value size bounded by `MaxSignatories`, with a deposit"%string; "  taken for its lifetime of `DepositBase + threshold * DepositFactor`."%string]); (Variant "approve_as_multi"%string [(Field (Some "threshold"%string) 77%N (Some "u16"%string) []); (Field (Some "other_signatories"%string) 104%N (Some "Vec<T::AccountId>"%string) []); (Field (Some "maybe_timepoint"%string) 231%N (Some "Option<Timepoint<T::BlockNumber>>"%string) []); (Field (Some "call_hash"%string) 1%N (Some "[u8; 32]"%string) []); (Field (Some "max_weight"%string) 9%N (Some "Weight"%string) [])] 2%N ["Register approval for a dispatch to be made from a deterministic composite account if"%string; "approved by a total of `threshold - 1` of `other_signatories`."%string; ""%string; "Payment: `DepositBase` will be reserved if this is the first approval, plus"%string; "`threshold` times `DepositFactor`. It is returned once this dispatch happens or"%string; "is cancelled."%string; ""%string; "The dispatch origin for this call must be _Signed_."%string; ""%string; "- `threshold`: The total number of approvals for this dispatch before it is executed."%string; "- `other_signatories`: The accounts (other than the sender) who can approve this"%string; "dispatch. May not be empty."%string; "- `maybe_timepoint`: If this is the first approval, then this must be `None`. If it is"%string; "not the first approval, then it must be `Some`, with the timepoint (block number and"%string; "transaction index) of the first approval transaction."%string; "- `call_hash`: The hash of the call to be executed."%string; ""%string; "NOTE: If this is the final approval, you will want to use `as_multi` instead."%string; ""%string; "## Complexity"%string; "- `O(S)`."%string; "- Up to one balance-reserve or unreserve operation."%string; "- One passthrough operation, one insert, both `O(S)` where `S` is the number of"%string; "  signatories. `S` is capped by `MaxSignatories`, with weight being proportional."%string; "- One encode & hash, both of complexity `O(S)`."%string; "- Up to one binary search and insert (`O(logS + S)`)."%string; "- I/O: 1 read `O(S)`, up to 1 mutate `O(S)`. Up to one remove."%string; "- One event."%string; "- Storage: inserts one item, value size bounded by `MaxSignatories`, with a deposit"%string; "  taken for its lifetime of `DepositBase + threshold * DepositFactor`."%string]); (Variant "cancel_as_multi"%string [(Field (Some "threshold"%string) 77%N (Some "u16"%string) []); (Field (Some "other_signatories"%string) 104%N (Some "Vec<T::AccountId>"%string) []); (Field (Some "timepoint"%string) 232%N (Some "Timepoint<T::BlockNumber>"%string) []); (Field (Some "call_hash"%string) 1%N (Some "[u8; 32]"%string) [])] 3%N ["Cancel a pre-existing, on-going multisig transaction. Any deposit reserved previously"%string; "for this operation will be unreserved on success."%string; ""%string; "The dispatch origin for this call must be _Signed_."%string; ""%string; "- `threshold`: The total number of approvals for this dispatch before it is executed."%string; "- `other_signatories`: The accounts (other than the sender) who can approve this"%string; "dispatch. May not be empty."%string; "- `timepoint`: The timepoint (block number and transaction index) of the first approval"%string; "transaction for this dispatch."%string; "- `call_hash`: The hash of the call to be executed."%string; ""%string; "## Complexity"%string; "- `O(S)`."%string; "- Up to one balance-reserve or unreserve operation."%string; "- One passthrough operation, one insert, both `O(S)` where `S` is the number of"%string; "  signatories. `S` is capped by `MaxSignatories`, with weight being proportional."%string; "- One encode & hash, both of complexity `O(S)`."%string; "- One event."%string; "- I/O: 1 read `O(S)`, one remove."%string; "- Storage: removes one item."%string])]) ["Contains one variant per dispatchable that can be called by an extrinsic."%string]).
Definition md_t231 : ty := (Ty ["Option"%string] [("T"%string,(Some 232%N))] (TVariant [(Variant "None"%string [] 0%N []); (Variant "Some"%string [(Field None 232%N None [])] 1%N [])]) []).
Definition md_t232 : ty := (Ty ["pallet_multisig"%string; "Timepoint"%string] [("BlockNumber"%string,(Some 4%N))] (TComposite [(Field (Some "height"%string) 4%N (Some "BlockNumber"%string) []); (Field (Some "index"%string) 4%N (Some "u32"%string) [])]) []).
Definition md_t233 : ty := (Ty ["pallet_bounties"%string; "pallet"%string; "Call"%string] [("T"%string,None); ("I"%string,None)] (TVariant [(Variant "propose_bounty"%string [(Field (Some "value"%string) 60%N (Some "BalanceOf<T, I>"%string) []); (Field (Some "description"%string) 13%N (Some "Vec<u8>"%string) [])] 0%N ["Propose a new bounty."%string; ""%string; "The dispatch origin for this call must be _Signed_."%string; ""%string; "Payment: `TipReportDepositBase` will be reserved from the origin account, as well as"%string; "`DataDepositPerByte` for each byte in `reason`. It will be unreserved upon approval,"%string; "or slashed when rejected."%string; ""%string; "- `curator`: The curator account whom will manage this bounty."%string; "- `fee`: The curator fee."%string; "- `value`: The total payment amount of this bounty, curator fee included."%string; "- `description`: The description of this bounty."%string]); (Variant "approve_bounty"%string [(Field (Some "bounty_id"%string) 91%N (Some "BountyIndex"%string) [])] 1%N ["Approve a bounty proposal. At a later time, the bounty will be funded and become active"%string; "and the original deposit will be returned."%string; ""%string; "May only be called from `T::SpendOrigin`."%string; ""%string; "## Complexity"%string; "- O(1)."%string]); (Variant "propose_curator"%string [(Field (Some "bounty_id"%string) 91%N (Some "BountyIndex"%string) []); (Field (Some "curator"%string) 100%N (Some "AccountIdLookupOf<T>"%string) []); (Field (Some "fee"%string) 60%N (Some "BalanceOf<T, I>"%string) [])] 2%N ["Assign a curator to a funded bounty."%string; ""%string; "May only be called from `T::SpendOrigin`."%string; ""%string; "## Complexity"%string; "- O(1)."%string]); (Variant "unassign_curator"%string [(Field (Some "bounty_id"%string) 91%N (Some "BountyIndex"%string) [])] 3%N ["Unassign curator from a bounty."%string; ""%string; "This function can only be called by the `RejectOrigin` a signed origin."%string; ""%string; "If this function is called by the `RejectOrigin`, we assume that the curator is"%string; "malicious or inactive. As a result, we will slash the curator when possible."%string; ""%string; "If the origin is the curator, we take this as a sign they are unable to do their job and"%string; "they willingly give up. We could slash them, but for now we allow them to recover their"%string; "deposit and exit without issue. (We may want to change this if it is abused.)"%string; ""%string; "Finally, the origin can be anyone if and only if the curator is ""inactive"". This allows"%string; "anyone in the community to call out that a curator is not doing their due diligence, and"%string; "we should pick a new curator. In this case the curator should also be slashed."%string; ""%string; "## Complexity"%string; "- O(1)."%string]); (Variant "accept_curator"%string [(Field (Some "bounty_id"%string) 91%N (Some "BountyIndex"%string) [])] 4%N ["Accept the curator role for a bounty."%string; "A deposit will be reserved from curator and refund upon successful payout."%string; ""%string; "May only be called from the curator."%string; ""%string; "## Complexity"%string; "- O(1)."%string]); (Variant "award_bounty"%string [(Field (Some "bounty_id"%string) 91%N (Some "BountyIndex"%string) []); (Field (Some "beneficiary"%string) 100%N (Some "AccountIdLookupOf<T>"%string) [])] 5%N ["Award bounty to a beneficiary account. The beneficiary will be able to claim the funds"%string; "after a delay."%string; ""%string; "The dispatch origin for this call must be the curator of this bounty."%string; ""%string; "- `bounty_id`: Bounty ID to award."%string; "- `beneficiary`: The beneficiary account whom will receive the payout."%string; ""%string; "## Complexity"%string; "- O(1)."%string]); (Variant "claim_bounty"%string [(Field (Some "bounty_id"%string) 91%N (Some "BountyIndex"%string) [])] 6%N ["Claim the payout from an awarded bounty after payout delay."%string; ""%string; "The dispatch origin for this call must be the beneficiary of this bounty."%string; ""%string; "- `bounty_id`: Bounty ID to claim."%string; ""%string; "## Complexity"%string; "- O(1)."%string]); (Variant "close_bounty"%string [(Field (Some "bounty_id"%string) 91%N (Some "BountyIndex"%string) [])] 7%N ["Cancel a proposed or active bounty. All the funds will be sent to treasury and"%string; "the curator deposit will be unreserved if possible."%string; ""%string; "Only `T::RejectOrigin` is able to cancel a bounty."%string; ""%string; "- `bounty_id`: Bounty ID to cancel."%string; ""%string; "## Complexity"%string; "- O(1)."%string]); (Variant "extend_bounty_expiry"%string [(Field (Some "bounty_id"%string) 91%N (Some "BountyIndex"%string) []); (Field (Some "remark"%string) 13%N (Some "Vec<u8>"%string) [])] 8%N ["Extend the expiry time of an active bounty."%string; ""%string; "The dispatch origin for this call must be the curator of this bounty."%string; ""%string; "- `bounty_id`: Bounty ID to extend."%string; "- `remark`: additional information."%string; ""%string; "## Complexity"%string; "- O(1)."%string])]) ["Contains one variant per dispatchable that can be called by an extrinsic."%string]).
Definition md_t234 : ty := (Ty ["pallet_child_bounties"%string; "pallet"%string; "Call"%string] [("T"%string,None)] (TVariant [(Variant "add_child_bounty"%string [(Field (Some "parent_bounty_id"%string) 91%N (Some "BountyIndex"%string) []); (Field (Some "value"%string) 60%N (Some "BalanceOf<T>"%string) []); (Field (Some "description"%string) 13%N (Some "Vec<u8>"%string) [])] 0%N ["Add a new child-bounty."%string; ""%string; "The dispatch origin for this call must be the curator of parent"%string; "bounty and the parent bounty must be in ""active"" state."%string; ""%string; "Child-bounty gets added successfully & fund gets transferred from"%string; "parent bounty to child-bounty account, if parent bounty has enough"%string; "funds, else the call fails."%string; ""%string; "Upper bound to maximum number of active  child bounties that can be"%string; "added are managed via runtime trait config"%string; "[`Config::MaxActiveChildBountyCount`]."%string; ""%string; "If the call is success, the status of child-bounty is updated to"%string; """Added""."%string; ""%string; "- `parent_bounty_id`: Index of parent bounty for which child-bounty is being added."%string; "- `value`: Value for executing the proposal."%string; "- `description`: Text description for the child-bounty."%string]); (Variant "propose_curator"%string [(Field (Some "parent_bounty_id"%string) 91%N (Some "BountyIndex"%string) []); (Field (Some "child_bounty_id"%string) 91%N (Some "BountyIndex"%string) []); (Field (Some "curator"%string) 100%N (Some "AccountIdLookupOf<T>"%string) []); (Field (Some "fee"%string) 60%N (Some "BalanceOf<T>"%string) [])] 1%N ["Propose curator for funded child-bounty."%string; ""%string; "The dispatch origin for this call must be curator of parent bounty."%string; ""%string; "Parent bounty must be in active state, for this child-bounty call to"%string; "work."%string; ""%string; "Child-bounty must be in ""Added"" state, for processing the call. And"%string; "state of child-bounty is moved to ""CuratorProposed"" on successful"%string; "call completion."%string; ""%string; "- `parent_bounty_id`: Index of parent bounty."%string; "- `child_bounty_id`: Index of child bounty."%string; "- `curator`: Address of child-bounty curator."%string; "- `fee`: payment fee to child-bounty curator for execution."%string]); (Variant "accept_curator"%string [(Field (Some "parent_bounty_id"%string) 91%N (Some "BountyIndex"%string) []); (Field (Some "child_bounty_id"%string) 91%N (Some "BountyIndex"%string) [])] 2%N ["Accept the curator role for the child-bounty."%string; ""%string; "The dispatch origin for this call must be the curator of this"%string; "child-bounty."%string; ""%string; "A deposit will be reserved from the curator and refund upon"%string; "successful payout or cancellation."%string; ""%string; "Fee for curator is deducted from curator fee of parent bounty."%string; ""%string; "Parent bounty must be in active state, for this child-bounty call to"%string; "work."%string; ""%string; "Child-bounty must be in ""CuratorProposed"" state, for processing the"%string; "call. And state of child-bounty is moved to ""Active"" on successful"%string; "call completion."%string; ""%string; "- `parent_bounty_id`: Index of parent bounty."%string; "- `child_bounty_id`: Index of child bounty."%string]); (Variant "unassign_curator"%string [(Field (Some "parent_bounty_id"%string) 91%N (Some "BountyIndex"%string) []); (Field (Some "child_bounty_id"%string) 91%N (Some "BountyIndex"%string) [])] 3%N ["Unassign curator from a child-bounty."%string; ""%string; "The dispatch origin for this call can be either `RejectOrigin`, or"%string; "the curator of the parent bounty, or any signed origin."%string; ""%string; "For the origin other than T::RejectOrigin and the child-bounty"%string; "curator, parent bounty must be in active state, for this call to"%string; "work. We allow child-bounty curator and T::RejectOrigin to execute"%string; "this call irrespective of the parent bounty state."%string; ""%string; "If this function is called by the `RejectOrigin` or the"%string; "parent bounty curator, we assume that the child-bounty curator is"%string; "malicious or inactive. As a result, child-bounty curator deposit is"%string; "slashed."%string; ""%string; "If the origin is the child-bounty curator, we take this as a sign"%string; "that they are unable to do their job, and are willingly giving up."%string; "We could slash the deposit, but for now we allow them to unreserve"%string; "their deposit and exit without issue. (We may want to change this if"%string; "it is abused.)"%string; ""%string; "Finally, the origin can be anyone iff the child-bounty curator is"%string; """inactive"". Expiry update due of parent bounty is used to estimate"%string; "inactive state of child-bounty curator."%string; ""%string; "This allows anyone in the community to call out that a child-bounty"%string; "curator is not doing their due diligence, and we should pick a new"%string; "one. In this case the child-bounty curator deposit is slashed."%string; ""%string; "State of child-bounty is moved to Added state on successful call"%string; "completion."%string; ""%string; "- `parent_bounty_id`: Index of parent bounty."%string; "- `child_bounty_id`: Index of child bounty."%string]); (Variant "award_child_bounty"%string [(Field (Some "parent_bounty_id"%string) 91%N (Some "BountyIndex"%string) []); (Field (Some "child_bounty_id"%string) 91%N (Some "BountyIndex"%string) []); (Field (Some "beneficiary"%string) 100%N (Some "AccountIdLookupOf<T>"%string) [])] 4%N ["Award child-bounty to a beneficiary."%string; ""%string; "The beneficiary will be able to claim the funds after a delay."%string; ""%string; "The dispatch origin for this call must be the parent curator or"%string; "curator of this child-bounty."%string; ""%string; "Parent bounty must be in active state, for this child-bounty call to"%string; "work."%string; ""%string; "Child-bounty must be in active state, for processing the call. And"%string; "state of child-bounty is moved to ""PendingPayout"" on successful call"%string; "completion."%string; ""%string; "- `parent_bounty_id`: Index of parent bounty."%string; "- `child_bounty_id`: Index of child bounty."%string; "- `beneficiary`: Beneficiary account."%string]); (Variant "claim_child_bounty"%string [(Field (Some "parent_bounty_id"%string) 91%N (Some "BountyIndex"%string) []); (Field (Some "child_bounty_id"%string) 91%N (Some "BountyIndex"%string) [])] 5%N ["Claim the payout from an awarded child-bounty after payout delay."%string; ""%string; "The dispatch origin for this call may be any signed origin."%string; ""%string; "Call works independent of parent bounty state, No need for parent"%string; "bounty to be in active state."%string; ""%string; "The Beneficiary is paid out with agreed bounty value. Curator fee is"%string; "paid & curator deposit is unreserved."%string; ""%string; "Child-bounty must be in ""PendingPayout"" state, for processing the"%string; "call. And instance of child-bounty is removed from the state on"%string; "successful call completion."%string; ""%string; "- `parent_bounty_id`: Index of parent bounty."%string; "- `child_bounty_id`: Index of child bounty."%string]); (Variant "close_child_bounty"%string [(Field (Some "parent_bounty_id"%string) 91%N (Some "BountyIndex"%string) []); (Field (Some "child_bounty_id"%string) 91%N (Some "BountyIndex"%string) [])] 6%N ["Cancel a proposed or active child-bounty. Child-bounty account funds"%string; "are transferred to parent bounty account. The child-bounty curator"%string; "deposit may be unreserved if possible."%string; ""%string; "The dispatch origin for this call must be either parent curator or"%string; "`T::RejectOrigin`."%string; ""%string; "If the state of child-bounty is `Active`, curator deposit is"%string; "unreserved."%string; ""%string; "If the state of child-bounty is `PendingPayout`, call fails &"%string; "returns `PendingPayout` error."%string; ""%string; "For the origin other than T::RejectOrigin, parent bounty must be in"%string; "active state, for this child-bounty call to work. For origin"%string; "T::RejectOrigin execution is forced."%string; ""%string; "Instance of child-bounty is removed from the state on successful"%string; "call completion."%string; ""%string; "- `parent_bounty_id`: Index of parent bounty."%string; "- `child_bounty_id`: Index of child bounty."%string])]) ["Contains one variant per dispatchable that can be called by an extrinsic."%string]).
Definition md_t235 : ty := (Ty ["pallet_tips"%string; "pallet"%string; "Call"%string] [("T"%string,None); ("I"%string,None)] (TVariant [(Variant "report_awesome"%string [(Field (Some "reason"%string) 13%N (Some "Vec<u8>"%string) []); (Field (Some "who"%string) 100%N (Some "AccountIdLookupOf<T>"%string) [])] 0%N ["Report something `reason` that deserves a tip and claim any eventual the finder's fee."%string; ""%string; "The dispatch origin for this call must be _Signed_."%string; ""%string; "Payment: `TipReportDepositBase` will be reserved from the origin account, as well as"%string; "`DataDepositPerByte` for each byte in `reason`."%string; ""%string; "- `reason`: The reason for, or the thing that deserves, the tip; generally this will be"%string; "  a UTF-8-encoded URL."%string; "- `who`: The account which should be credited for the tip."%string; ""%string; "Emits `NewTip` if successful."%string; ""%string; "## Complexity"%string; "- `O(R)` where `R` length of `reason`."%string; "  - encoding and hashing of 'reason'"%string]); (Variant "retract_tip"%string [(Field (Some "hash"%string) 12%N (Some "T::Hash"%string) [])] 1%N ["Retract a prior tip-report from `report_awesome`, and cancel the process of tipping."%string; ""%string; "If successful, the original deposit will be unreserved."%string; ""%string; "The dispatch origin for this call must be _Signed_ and the tip identified by `hash`"%string; "must have been reported by the signing account through `report_awesome` (and not"%string; "through `tip_new`)."%string; ""%string; "- `hash`: The identity of the open tip for which a tip value is declared. This is formed"%string; "  as the hash of the tuple of the original tip `reason` and the beneficiary account ID."%string; ""%string; "Emits `TipRetracted` if successful."%string; ""%string; "## Complexity"%string; "- `O(1)`"%string; "  - Depends on the length of `T::Hash` which is fixed."%string]); (Variant "tip_new"%string [(Field (Some "reason"%string) 13%N (Some "Vec<u8>"%string) []); (Field (Some "who"%string) 100%N (Some "AccountIdLookupOf<T>"%string) []); (Field (Some "tip_value"%string) 60%N (Some "BalanceOf<T, I>"%string) [])] 2%N ["Give a tip for something new; no finder's fee will be taken."%string; ""%string; "The dispatch origin for this call must be _Signed_ and the signing account must be a"%string; "member of the `Tippers` set."%string; ""%string; "- `reason`: The reason for, or the thing that deserves, the tip; generally this will be"%string; "  a UTF-8-encoded URL."%string; "- `who`: The account which should be credited for the tip."%string; "- `tip_value`: The amount of tip that the sender would like to give. The median tip"%string; "  value of active tippers will be given to the `who`."%string; ""%string; "Emits `NewTip` if successful."%string; ""%string; "## Complexity"%string; "- `O(R + T)` where `R` length of `reason`, `T` is the number of tippers."%string; "  - `O(T)`: decoding `Tipper` vec of length `T`. `T` is charged as upper bound given by"%string; "    `ContainsLengthBound`. The actual cost depends on the implementation of"%string; "    `T::Tippers`."%string; "  - `O(R)`: hashing and encoding of reason of length `R`"%string]); (Variant "tip"%string [(Field (Some "hash"%string) 12%N (Some "T::Hash"%string) []); (Field (Some "tip_value"%string) 60%N (Some "BalanceOf<T, I>"%string) [])] 3%N ["Declare a tip value for an already-open tip."%string; ""%string; "The dispatch origin for this call must be _Signed_ and the signing account must be a"%string; "member of the `Tippers` set."%string; ""%string; "- `hash`: The identity of the open tip for which a tip value is declared. This is formed"%string; "  as the hash of the tuple of the hash of the original tip `reason` and the beneficiary"%string; "  account ID."%string; "- `tip_value`: The amount of tip that the sender would like to give. The median tip"%string; "  value of active tippers will be given to the `who`."%string; ""%string; "Emits `TipClosing` if the threshold of tippers has been reached and the countdown period"%string; "has started."%string; ""%string; "## Complexity"%string; "- `O(T)` where `T` is the number of tippers. decoding `Tipper` vec of length `T`, insert"%string; "  tip and check closing, `T` is charged as upper bound given by `ContainsLengthBound`."%string; "  The actual cost depends on the implementation of `T::Tippers`."%string; ""%string; "  Actually weight could be lower as it depends on how many tips are in `OpenTip` but it"%string; "  is weighted as if almost full i.e of length `T-1`."%string]); (Variant "close_tip"%string [(Field (Some "hash"%string) 12%N (Some "T::Hash"%string) [])] 4%N ["Close and payout a tip."%string; ""%string; "The dispatch origin for this call must be _Signed_."%string; ""%string; "The tip identified by `hash` must have finished its countdown period."%string; ""%string; "- `hash`: The identity of the open tip for which a tip value is declared. This is formed"%string; "  as the hash of the tuple of the original tip `reason` and the beneficiary account ID."%string; ""%string; "## Complexity"%string; "- : `O(T)` where `T` is the number of tippers. decoding `Tipper` vec of length `T`. `T`"%string; "  is charged as upper bound given by `ContainsLengthBound`. The actual cost depends on"%string; "  the implementation of `T::Tippers`."%string]); (Variant "slash_tip"%string [(Field (Some "hash"%string) 12%N (Some "T::Hash"%string) [])] 5%N ["Remove and slash an already-open tip."%string; ""%string; "May only be called from `T::RejectOrigin`."%string; ""%string; "As a result, the finder is slashed and the deposits are lost."%string; ""%string; "Emits `TipSlashed` if successful."%string; ""%string; "## Complexity"%string; "- O(1)."%string])]) ["Contains one variant per dispatchable that can be called by an extrinsic."%string]).
Definition md_t236 : ty := (Ty ["pallet_election_provider_multi_phase"%string; "pallet"%string; "Call"%string] [("T"%string,None)] (TVariant [(Variant "submit_unsigned"%string [(Field (Some "raw_solution"%string) 237%N (Some "Box<RawSolution<SolutionOf<T::MinerConfig>>>"%string) []); (Field (Some "witness"%string) 290%N (Some "SolutionOrSnapshotSize"%string) [])] 0%N ["Submit a solution for the unsigned phase."%string; ""%string; "The dispatch origin fo this call must be __none__."%string; ""%string; "This submission is checked on the fly. Moreover, this unsigned solution is only"%string; "validated when submitted to the pool from the **local** node. Effectively, this means"%string; "that only active validators can submit this transaction when authoring a block (similar"%string; "to an inherent)."%string; ""%string; "To prevent any incorrect solution (and thus wasted time/weight), this transaction will"%string; "panic if the solution submitted by the validator is invalid in any way, effectively"%string; "putting their authoring reward at risk."%string; ""%string; "No deposit or reward is associated with this submission."%string]); (Variant "set_minimum_untrusted_score"%string [(Field (Some "maybe_next_score"%string) 291%N (Some "Option<ElectionScore>"%string) [])] 1%N ["Set a new value for `MinimumUntrustedScore`."%string; ""%string; "Dispatch origin must be aligned with `T::ForceOrigin`."%string; ""%string; "This check can be turned off by setting the value to `None`."%string]); (Variant "set_emergency_election_result"%string [(Field (Some "supports"%string) 292%N (Some "Supports<T::AccountId>"%string) [])] 2%N ["Set a solution in the queue, to be handed out to the client of this pallet in the next"%string; "call to `ElectionProvider::elect`."%string; ""%string; "This can only be set by `T::ForceOrigin`, and only when the phase is `Emergency`."%string; ""%string; "The solution is not checked for any feasibility and is assumed to be trustworthy, as any"%string; "feasibility check itself can in principle cause the election process to fail (due to"%string; "memory/weight constrains)."%string]); (Variant "submit"%string [(Field (Some "raw_solution"%string) 237%N (Some "Box<RawSolution<SolutionOf<T::MinerConfig>>>"%string) [])] 3%N ["Submit a solution for the signed phase."%string; ""%string; "The dispatch origin fo this call must be __signed__."%string; ""%string; "The solution is potentially queued, based on the claimed score and processed at the end"%string; "of the signed phase."%string; ""%string; "A deposit is reserved and recorded for the solution. Based on the outcome, the solution"%string; "might be rewarded, slashed, or get all or a part of the deposit back."%string]); (Variant "governance_fallback"%string [(Field (Some "maybe_max_voters"%string) 141%N (Some "Option<u32>"%string) []); (Field (Some "maybe_max_targets"%string) 141%N (Some "Option<u32>"%string) [])] 4%N ["Trigger the governance fallback."%string; ""%string; "This can only be called when [`Phase::Emergency`] is enabled, as an alternative to"%string; "calling [`Call::set_emergency_election_result`]."%string])]) ["Contains one variant per dispatchable that can be called by an extrinsic."%string]).
Definition md_t237 : ty := (Ty ["pallet_election_provider_multi_phase"%string; "RawSolution"%string] [("S"%string,(Some 238%N))] (TComposite [(Field (Some "solution"%string) 238%N (Some "S"%string) []); (Field (Some "score"%string) 289%N (Some "ElectionScore"%string) []); (Field (Some "round"%string) 4%N (Some "u32"%string) [])]) []).
Definition md_t238 : ty := (Ty ["polkadot_runtime"%string; "NposCompactSolution16"%string] [] (TComposite [(Field (Some "votes1"%string) 239%N None []); (Field (Some "votes2"%string) 242%N None []); (Field (Some "votes3"%string) 247%N None []); (Field (Some "votes4"%string) 250%N None []); (Field (Some "votes5"%string) 253%N None []); (Field (Some "votes6"%string) 256%N None []); (Field (Some "votes7"%string) 259%N None []); (Field (Some "votes8"%string) 262%N None []); (Field (Some "votes9"%string) 265%N None []); (Field (Some "votes10"%string) 268%N None []); (Field (Some "votes11"%string) 271%N None []); (Field (Some "votes12"%string) 274%N None []); (Field (Some "votes13"%string) 277%N None []); (Field (Some "votes14"%string) 280%N None []); (Field (Some "votes15"%string) 283%N None []); (Field (Some "votes16"%string) 286%N None [])]) []).
Definition md_t239 : ty := (Ty [] [] (TSequence 240%N) []).
Definition md_t240 : ty := (Ty [] [] (TTuple [91%N; 241%N]) []).
Definition md_t241 : ty := (Ty [] [] (TCompact 77%N) []).
Definition md_t242 : ty := (Ty [] [] (TSequence 243%N) []).
Definition md_t243 : ty := (Ty [] [] (TTuple [91%N; 244%N; 241%N]) []).
Definition md_t244 : ty := (Ty [] [] (TTuple [241%N; 245%N]) []).
Definition md_t245 : ty := (Ty [] [] (TCompact 246%N) []).
Definition md_t246 : ty := (Ty ["sp_arithmetic"%string; "per_things"%string; "PerU16"%string] [] (TComposite [(Field None 77%N (Some "u16"%string) [])]) []).
Definition md_t247 : ty := (Ty [] [] (TSequence 248%N) []).
Definition md_t248 : ty := (Ty [] [] (TTuple [91%N; 249%N; 241%N]) []).
Definition md_t249 : ty := (Ty [] [] (TArray 2%N 244%N) []).
Definition md_t250 : ty := (Ty [] [] (TSequence 251%N) []).
Definition md_t251 : ty := (Ty [] [] (TTuple [91%N; 252%N; 241%N]) []).
Definition md_t252 : ty := (Ty [] [] (TArray 3%N 244%N) []).
Definition md_t253 : ty := (Ty [] [] (TSequence 254%N) []).
Definition md_t254 : ty := (Ty [] [] (TTuple [91%N; 255%N; 241%N]) []).
Definition md_t255 : ty := (Ty [] [] (TArray 4%N 244%N) []).
Definition md_t256 : ty := (Ty [] [] (TSequence 257%N) []).
Definition md_t257 : ty := (Ty [] [] (TTuple [91%N; 258%N; 241%N]) []).
Definition md_t258 : ty := (Ty [] [] (TArray 5%N 244%N) []).
Definition md_t259 : ty := (Ty [] [] (TSequence 260%N) []).
Definition md_t260 : ty := (Ty [] [] (TTuple [91%N; 261%N; 241%N]) []).
Definition md_t261 : ty := (Ty [] [] (TArray 6%N 244%N) []).
Definition md_t262 : ty := (Ty [] [] (TSequence 263%N) []).
Definition md_t263 : ty := (Ty [] [] (TTuple [91%N; 264%N; 241%N]) []).
Definition md_t264 : ty := (Ty [] [] (TArray 7%N 244%N) []).
Definition md_t265 : ty := (Ty [] [] (TSequence 266%N) []).
Definition md_t266 : ty := (Ty [] [] (TTuple [91%N; 267%N; 241%N]) []).
Definition md_t267 : ty := (Ty [] [] (TArray 8%N 244%N) []).
Definition md_t268 : ty := (Ty [] [] (TSequence 269%N) []).
Definition md_t269 : ty := (Ty [] [] (TTuple [91%N; 270%N; 241%N]) []).
Definition md_t270 : ty := (Ty [] [] (TArray 9%N 244%N) []).
Definition md_t271 : ty := (Ty [] [] (TSequence 272%N) []).
Definition md_t272 : ty := (Ty [] [] (TTuple [91%N; 273%N; 241%N]) []).
Definition md_t273 : ty := (Ty [] [] (TArray 10%N 244%N) []).
Definition md_t274 : ty := (Ty [] [] (TSequence 275%N) []).
Definition md_t275 : ty := (Ty [] [] (TTuple [91%N; 276%N; 241%N]) []).
Definition md_t276 : ty := (Ty [] [] (TArray 11%N 244%N) []).
Definition md_t277 : ty := (Ty [] [] (TSequence 278%N) []).
Definition md_t278 : ty := (Ty [] [] (TTuple [91%N; 279%N; 241%N]) []).
Definition md_t279 : ty := (Ty [] [] (TArray 12%N 244%N) []).
Definition md_t280 : ty := (Ty [] [] (TSequence 281%N) []).
Definition md_t281 : ty := (Ty [] [] (TTuple [91%N; 282%N; 241%N]) []).
Definition md_t282 : ty := (Ty [] [] (TArray 13%N 244%N) []).
Definition md_t283 : ty := (Ty [] [] (TSequence 284%N) []).
Definition md_t284 : ty := (Ty [] [] (TTuple [91%N; 285%N; 241%N]) []).
Definition md_t285 : ty := (Ty [] [] (TArray 14%N 244%N) []).
Definition md_t286 : ty := (Ty [] [] (TSequence 287%N) []).
Definition md_t287 : ty := (Ty [] [] (TTuple [91%N; 288%N; 241%N]) []).
Definition md_t288 : ty := (Ty [] [] (TArray 15%N 244%N) []).
Definition md_t289 : ty := (Ty ["sp_npos_elections"%string; "ElectionScore"%string] [] (TComposite [(Field (Some "minimal_stake"%string) 6%N (Some "ExtendedBalance"%string) []); (Field (Some "sum_stake"%string) 6%N (Some "ExtendedBalance"%string) []); (Field (Some "sum_stake_squared"%string) 6%N (Some "ExtendedBalance"%string) [])]) []).
Definition md_t290 : ty := (Ty ["pallet_election_provider_multi_phase"%string; "SolutionOrSnapshotSize"%string] [] (TComposite [(Field (Some "voters"%string) 91%N (Some "u32"%string) []); (Field (Some "targets"%string) 91%N (Some "u32"%string) [])]) []).
Definition md_t291 : ty := (Ty ["Option"%string] [("T"%string,(Some 289%N))] (TVariant [(Variant "None"%string [] 0%N []); (Variant "Some"%string [(Field None 289%N None [])] 1%N [])]) []).
Definition md_t292 : ty := (Ty [] [] (TSequence 293%N) []).
Definition md_t293 : ty := (Ty [] [] (TTuple [0%N; 294%N]) []).
Definition md_t294 : ty := (Ty ["sp_npos_elections"%string; "Support"%string] [("AccountId"%string,(Some 0%N))] (TComposite [(Field (Some "total"%string) 6%N (Some "ExtendedBalance"%string) []); (Field (Some "voters"%string) 71%N (Some "Vec<(AccountId, ExtendedBalance)>"%string) [])]) []).
Definition md_t295 : ty := (Ty ["pallet_bags_list"%string; "pallet"%string; "Call"%string] [("T"%string,None); ("I"%string,None)] (TVariant [(Variant "rebag"%string [(Field (Some "dislocated"%string) 100%N (Some "AccountIdLookupOf<T>"%string) [])] 0%N ["Declare that some `dislocated` account has, through rewards or penalties, sufficiently"%string; "changed its score that it should properly fall into a different bag than its current"%string; "one."%string; ""%string; "Anyone can call this function about any potentially dislocated account."%string; ""%string; "Will always update the stored score of `dislocated` to the correct score, based on"%string; "`ScoreProvider`."%string; ""%string; "If `dislocated` does not exists, it returns an error."%string]); (Variant "put_in_front_of"%string [(Field (Some "lighter"%string) 100%N (Some "AccountIdLookupOf<T>"%string) [])] 1%N ["Move the caller's Id directly in front of `lighter`."%string; ""%string; "The dispatch origin for this call must be _Signed_ and can only be called by the Id of"%string; "the account going in front of `lighter`."%string; ""%string; "Only works if"%string; "- both nodes are within the same bag,"%string; "- and `origin` has a greater `Score` than `lighter`."%string])]) ["Contains one variant per dispatchable that can be called by an extrinsic."%string]).
Definition md_t296 : ty := (Ty ["pallet_nomination_pools"%string; "pallet"%string; "Call"%string] [("T"%string,None)] (TVariant [(Variant "join"%string [(Field (Some "amount"%string) 60%N (Some "BalanceOf<T>"%string) []); (Field (Some "pool_id"%string) 4%N (Some "PoolId"%string) [])] 0%N ["Stake funds with a pool. The amount to bond is transferred from the member to the"%string; "pools account and immediately increases the pools bond."%string; ""%string; "# Note"%string; ""%string; "* An account can only be a member of a single pool."%string; "* An account cannot join the same pool multiple times."%string; "* This call will *not* dust the member account, so the member must have at least"%string; "  `existential deposit + amount` in their account."%string; "* Only a pool with [`PoolState::Open`] can be joined"%string]); (Variant "bond_extra"%string [(Field (Some "extra"%string) 297%N (Some "BondExtra<BalanceOf<T>>"%string) [])] 1%N ["Bond `extra` more funds from `origin` into the pool to which they already belong."%string; ""%string; "Additional funds can come from either the free balance of the account, of from the"%string; "accumulated rewards, see [`BondExtra`]."%string; ""%string; "Bonding extra funds implies an automatic payout of all pending rewards as well."%string; "See `bond_extra_other` to bond pending rewards of `other` members."%string]); (Variant "claim_payout"%string [] 2%N ["A bonded member can use this to claim their payout based on the rewards that the pool"%string; "has accumulated since their last claimed payout (OR since joining if this is their first"%string; "time claiming rewards). The payout will be transferred to the member's account."%string; ""%string; "The member will earn rewards pro rata based on the members stake vs the sum of the"%string; "members in the pools stake. Rewards do not ""expire""."%string; ""%string; "See `claim_payout_other` to caim rewards on bahalf of some `other` pool member."%string]); (Variant "unbond"%string [(Field (Some "member_account"%string) 100%N (Some "AccountIdLookupOf<T>"%string) []); (Field (Some "unbonding_points"%string) 60%N (Some "BalanceOf<T>"%string) [])] 3%N ["Unbond up to `unbonding_points` of the `member_account`'s funds from the pool. It"%string; "implicitly collects the rewards one last time, since not doing so would mean some"%string; "rewards would be forfeited."%string; ""%string; "Under certain conditions, this call can be dispatched permissionlessly (i.e. by any"%string; "account)."%string; ""%string; "# Conditions for a permissionless dispatch."%string; ""%string; "* The pool is blocked and the caller is either the root or bouncer. This is refereed to"%string; "  as a kick."%string; "* The pool is destroying and the member is not the depositor."%string; "* The pool is destroying, the member is the depositor and no other members are in the"%string; "  pool."%string; ""%string; "## Conditions for permissioned dispatch (i.e. the caller is also the"%string; "`member_account`):"%string; ""%string; "* The caller is not the depositor."%string; "* The caller is the depositor, the pool is destroying and no other members are in the"%string; "  pool."%string; ""%string; "# Note"%string; ""%string; "If there are too many unlocking chunks to unbond with the pool account,"%string; "[`Call::pool_withdraw_unbonded`] can be called to try and minimize unlocking chunks."%string; "The [`StakingInterface::unbond`] will implicitly call [`Call::pool_withdraw_unbonded`]"%string; "to try to free chunks if necessary (ie. if unbound was called and no unlocking chunks"%string; "are available). However, it may not be possible to release the current unlocking chunks,"%string; "in which case, the result of this call will likely be the `NoMoreChunks` error from the"%string; "staking system."%string]); (Variant "pool_withdraw_unbonded"%string [(Field (Some "pool_id"%string) 4%N (Some "PoolId"%string) []); (Field (Some "num_slashing_spans"%string) 4%N (Some "u32"%string) [])] 4%N ["Call `withdraw_unbonded` for the pools account. This call can be made by any account."%string; ""%string; "This is useful if their are too many unlocking chunks to call `unbond`, and some"%string; "can be cleared by withdrawing. In the case there are too many unlocking chunks, the user"%string; "would probably see an error like `NoMoreChunks` emitted from the staking system when"%string; "they attempt to unbond."%string]); (Variant "withdraw_unbonded"%string [(Field (Some "member_account"%string) 100%N (Some "AccountIdLookupOf<T>"%string) []); (Field (Some "num_slashing_spans"%string) 4%N (Some "u32"%string) [])] 5%N ["Withdraw unbonded funds from `member_account`. If no bonded funds can be unbonded, an"%string; "error is returned."%string; ""%string; "Under certain conditions, this call can be dispatched permissionlessly (i.e. by any"%string; "account)."%string; ""%string; "# Conditions for a permissionless dispatch"%string; ""%string; "* The pool is in destroy mode and the target is not the depositor."%string; "* The target is the depositor and they are the only member in the sub pools."%string; "* The pool is blocked and the caller is either the root or bouncer."%string; ""%string; "# Conditions for permissioned dispatch"%string; ""%string; "* The caller is the target and they are not the depositor."%string; ""%string; "# Note"%string; ""%string; "If the target is the depositor, the pool will be destroyed."%string]); (Variant "create"%string [(Field (Some "amount"%string) 60%N (Some "BalanceOf<T>"%string) []); (Field (Some "root"%string) 100%N (Some "AccountIdLookupOf<T>"%string) []); (Field (Some "nominator"%string) 100%N (Some "AccountIdLookupOf<T>"%string) []); (Field (Some "bouncer"%string) 100%N (Some "AccountIdLookupOf<T>"%string) [])] 6%N ["Create a new delegation pool."%string; ""%string; "# Arguments"%string; ""%string; "* `amount` - The amount of funds to delegate to the pool. This also acts of a sort of"%string; "  deposit since the pools creator cannot fully unbond funds until the pool is being"%string; "  destroyed."%string; "* `index` - A disambiguation index for creating the account. Likely only useful when"%string; "  creating multiple pools in the same extrinsic."%string; "* `root` - The account to set as [`PoolRoles::root`]."%string; "* `nominator` - The account to set as the [`PoolRoles::nominator`]."%string; "* `bouncer` - The account to set as the [`PoolRoles::bouncer`]."%string; ""%string; "# Note"%string; ""%string; "In addition to `amount`, the caller will transfer the existential deposit; so the caller"%string; "needs at have at least `amount + existential_deposit` transferrable."%string]); (Variant "create_with_pool_id"%string [(Field (Some "amount"%string) 60%N (Some "BalanceOf<T>"%string) []); (Field (Some "root"%string) 100%N (Some "AccountIdLookupOf<T>"%string) []); (Field (Some "nominator"%string) 100%N (Some "AccountIdLookupOf<T>"%string) []); (Field (Some "bouncer"%string) 100%N (Some "AccountIdLookupOf<T>"%string) []); (Field (Some "pool_id"%string) 4%N (Some "PoolId"%string) [])] 7%N ["Create a new delegation pool with a previously used pool id"%string; ""%string; "# Arguments"%string; ""%string; "same as `create` with the inclusion of"%string; "* `pool_id` - `A valid PoolId."%string]); (Variant "nominate"%string [(Field (Some "pool_id"%string) 4%N (Some "PoolId"%string) []); (Field (Some "validators"%string) 104%N (Some "Vec<T::AccountId>"%string) [])] 8%N ["Nominate on behalf of the pool."%string; ""%string; "The dispatch origin of this call must be signed by the pool nominator or the pool"%string; "root role."%string; ""%string; "This directly forward the call to the staking pallet, on behalf of the pool bonded"%string; "account."%string]); (Variant "set_state"%string [(Field (Some "pool_id"%string) 4%N (Some "PoolId"%string) []); (Field (Some "state"%string) 298%N (Some "PoolState"%string) [])] 9%N ["Set a new state for the pool."%string; ""%string; "If a pool is already in the `Destroying` state, then under no condition can its state"%string; "change again."%string; ""%string; "The dispatch origin of this call must be either:"%string; ""%string; "1. signed by the bouncer, or the root role of the pool,"%string; "2. if the pool conditions to be open are NOT met (as described by `ok_to_be_open`), and"%string; "   then the state of the pool can be permissionlessly changed to `Destroying`."%string]); (Variant "set_metadata"%string [(Field (Some "pool_id"%string) 4%N (Some "PoolId"%string) []); (Field (Some "metadata"%string) 13%N (Some "Vec<u8>"%string) [])] 10%N ["Set a new metadata for the pool."%string; ""%string; "The dispatch origin of this call must be signed by the bouncer, or the root role of the"%string; "pool."%string]); (Variant "set_configs"%string [(Field (Some "min_join_bond"%string) 299%N (Some "ConfigOp<BalanceOf<T>>"%string) []); (Field (Some "min_create_bond"%string) 299%N (Some "ConfigOp<BalanceOf<T>>"%string) []); (Field (Some "max_pools"%string) 300%N (Some "ConfigOp<u32>"%string) []); (Field (Some "max_members"%string) 300%N (Some "ConfigOp<u32>"%string) []); (Field (Some "max_members_per_pool"%string) 300%N (Some "ConfigOp<u32>"%string) []); (Field (Some "global_max_commission"%string) 301%N (Some "ConfigOp<Perbill>"%string) [])] 11%N ["Update configurations for the nomination pools. The origin for this call must be"%string; "Root."%string; ""%string; "# Arguments"%string; ""%string; "* `min_join_bond` - Set [`MinJoinBond`]."%string; "* `min_create_bond` - Set [`MinCreateBond`]."%string; "* `max_pools` - Set [`MaxPools`]."%string; "* `max_members` - Set [`MaxPoolMembers`]."%string; "* `max_members_per_pool` - Set [`MaxPoolMembersPerPool`]."%string; "* `global_max_commission` - Set [`GlobalMaxCommission`]."%string]); (Variant "update_roles"%string [(Field (Some "pool_id"%string) 4%N (Some "PoolId"%string) []); (Field (Some "new_root"%string) 302%N (Some "ConfigOp<T::AccountId>"%string) []); (Field (Some "new_nominator"%string) 302%N (Some "ConfigOp<T::AccountId>"%string) []); (Field (Some "new_bouncer"%string) 302%N (Some "ConfigOp<T::AccountId>"%string) [])] 12%N ["Update the roles of the pool."%string; ""%string; "The root is the only entity that can change any of the roles, including itself,"%string; "excluding the depositor, who can never change."%string; ""%string; "It emits an event, notifying UIs of the role change. This event is quite relevant to"%string; "most pool members and they should be informed of changes to pool roles."%string]); (Variant "chill"%string [(Field (Some "pool_id"%string) 4%N (Some "PoolId"%string) [])] 13%N ["Chill on behalf of the pool."%string; ""%string; "The dispatch origin of this call must be signed by the pool nominator or the pool"%string; "root role, same as [`Pallet::nominate`]."%string; ""%string; "This directly forward the call to the staking pallet, on behalf of the pool bonded"%string; "account."%string]); (Variant "bond_extra_other"%string [(Field (Some "member"%string) 100%N (Some "AccountIdLookupOf<T>"%string) []); (Field (Some "extra"%string) 297%N (Some "BondExtra<BalanceOf<T>>"%string) [])] 14%N ["`origin` bonds funds from `extra` for some pool member `member` into their respective"%string; "pools."%string; ""%string; "`origin` can bond extra funds from free balance or pending rewards when `origin =="%string; "other`."%string; ""%string; "In the case of `origin != other`, `origin` can only bond extra pending rewards of"%string; "`other` members assuming set_claim_permission for the given member is"%string; "`PermissionlessAll` or `PermissionlessCompound`."%string]); (Variant "set_claim_permission"%string [(Field (Some "permission"%string) 303%N (Some "ClaimPermission"%string) [])] 15%N ["Allows a pool member to set a claim permission to allow or disallow permissionless"%string; "bonding and withdrawing."%string; ""%string; "By default, this is `Permissioned`, which implies only the pool member themselves can"%string; "claim their pending rewards. If a pool member wishes so, they can set this to"%string; "`PermissionlessAll` to allow any account to claim their rewards and bond extra to the"%string; "pool."%string; ""%string; "# Arguments"%string; ""%string; "* `origin` - Member of a pool."%string; "* `actor` - Account to claim reward. // improve this"%string]); (Variant "claim_payout_other"%string [(Field (Some "other"%string) 0%N (Some "T::AccountId"%string) [])] 16%N ["`origin` can claim payouts on some pool member `other`'s behalf."%string; ""%string; "Pool member `other` must have a `PermissionlessAll` or `PermissionlessWithdraw` in order"%string; "for this call to be successful."%string]); (Variant "set_commission"%string [(Field (Some "pool_id"%string) 4%N (Some "PoolId"%string) []); (Field (Some "new_commission"%string) 304%N (Some "Option<(Perbill, T::AccountId)>"%string) [])] 17%N ["Set the commission of a pool."%string; "Both a commission percentage and a commission payee must be provided in the `current`"%string; "tuple. Where a `current` of `None` is provided, any current commission will be removed."%string; ""%string; "- If a `None` is supplied to `new_commission`, existing commission will be removed."%string]); (Variant "set_commission_max"%string [(Field (Some "pool_id"%string) 4%N (Some "PoolId"%string) []); (Field (Some "max_commission"%string) 41%N (Some "Perbill"%string) [])] 18%N ["Set the maximum commission of a pool."%string; ""%string; "- Initial max can be set to any `Perbill`, and only smaller values thereafter."%string; "- Current commission will be lowered in the event it is higher than a new max"%string; "  commission."%string]); (Variant "set_commission_change_rate"%string [(Field (Some "pool_id"%string) 4%N (Some "PoolId"%string) []); (Field (Some "change_rate"%string) 306%N (Some "CommissionChangeRate<T::BlockNumber>"%string) [])] 19%N ["Set the commission change rate for a pool."%string; ""%string; "Initial change rate is not bounded, whereas subsequent updates can only be more"%string; "restrictive than the current."%string]); (Variant "claim_commission"%string [(Field (Some "pool_id"%string) 4%N (Some "PoolId"%string) [])] 20%N ["Claim pending commission."%string; ""%string; "The dispatch origin of this call must be signed by the `root` role of the pool. Pending"%string; "commission is paid out and added to total claimed commission`. Total pending commission"%string; "is reset to zero. the current."%string])]) ["Contains one variant per dispatchable that can be called by an extrinsic."%string]).
Definition md_t297 : ty := (Ty ["pallet_nomination_pools"%string; "BondExtra"%string] [("Balance"%string,(Some 6%N))] (TVariant [(Variant "FreeBalance"%string [(Field None 6%N (Some "Balance"%string) [])] 0%N []); (Variant "Rewards"%string [] 1%N [])]) []).
Definition md_t298 : ty := (Ty ["pallet_nomination_pools"%string; "PoolState"%string] [] (TVariant [(Variant "Open"%string [] 0%N []); (Variant "Blocked"%string [] 1%N []); (Variant "Destroying"%string [] 2%N [])]) []).
Definition md_t299 : ty := (Ty ["pallet_nomination_pools"%string; "ConfigOp"%string] [("T"%string,(Some 6%N))] (TVariant [(Variant "Noop"%string [] 0%N []); (Variant "Set"%string [(Field None 6%N (Some "T"%string) [])] 1%N []); (Variant "Remove"%string [] 2%N [])]) []).
Definition md_t300 : ty := (Ty ["pallet_nomination_pools"%string; "ConfigOp"%string] [("T"%string,(Some 4%N))] (TVariant [(Variant "Noop"%string [] 0%N []); (Variant "Set"%string [(Field None 4%N (Some "T"%string) [])] 1%N []); (Variant "Remove"%string [] 2%N [])]) []).
Definition md_t301 : ty := (Ty ["pallet_nomination_pools"%string; "ConfigOp"%string] [("T"%string,(Some 41%N))] (TVariant [(Variant "Noop"%string [] 0%N []); (Variant "Set"%string [(Field None 41%N (Some "T"%string) [])] 1%N []); (Variant "Remove"%string [] 2%N [])]) []).
Definition md_t302 : ty := (Ty ["pallet_nomination_pools"%string; "ConfigOp"%string] [("T"%string,(Some 0%N))] (TVariant [(Variant "Noop"%string [] 0%N []); (Variant "Set"%string [(Field None 0%N (Some "T"%string) [])] 1%N []); (Variant "Remove"%string [] 2%N [])]) []).
Definition md_t303 : ty := (Ty ["pallet_nomination_pools"%string; "ClaimPermission"%string] [] (TVariant [(Variant "Permissioned"%string [] 0%N []); (Variant "PermissionlessCompound"%string [] 1%N []); (Variant "PermissionlessWithdraw"%string [] 2%N []); (Variant "PermissionlessAll"%string [] 3%N [])]) []).
Definition md_t304 : ty := (Ty ["Option"%string] [("T"%string,(Some 305%N))] (TVariant [(Variant "None"%string [] 0%N []); (Variant "Some"%string [(Field None 305%N None [])] 1%N [])]) []).
Definition md_t305 : ty := (Ty [] [] (TTuple [41%N; 0%N]) []).
Definition md_t306 : ty := (Ty ["pallet_nomination_pools"%string; "CommissionChangeRate"%string] [("BlockNumber"%string,(Some 4%N))] (TComposite [(Field (Some "max_increase"%string) 41%N (Some "Perbill"%string) []); (Field (Some "min_delay"%string) 4%N (Some "BlockNumber"%string) [])]) []).
Definition md_t307 : ty := (Ty ["pallet_fast_unstake"%string; "pallet"%string; "Call"%string] [("T"%string,None)] (TVariant [(Variant "register_fast_unstake"%string [] 0%N ["Register oneself for fast-unstake."%string; ""%string; "The dispatch origin of this call must be signed by the controller account, similar to"%string; "`staking::unbond`."%string; ""%string; "The stash associated with the origin must have no ongoing unlocking chunks. If"%string; "successful, this will fully unbond and chill the stash. Then, it will enqueue the stash"%string; "to be checked in further blocks."%string; ""%string; "If by the time this is called, the stash is actually eligible for fast-unstake, then"%string; "they are guaranteed to remain eligible, because the call will chill them as well."%string; ""%string; "If the check works, the entire staking data is removed, i.e. the stash is fully"%string; "unstaked."%string; ""%string; "If the check fails, the stash remains chilled and waiting for being unbonded as in with"%string; "the normal staking system, but they lose part of their unbonding chunks due to consuming"%string; "the chain's resources."%string]); (Variant "deregister"%string [] 1%N ["Deregister oneself from the fast-unstake."%string; ""%string; "This is useful if one is registered, they are still waiting, and they change their mind."%string; ""%string; "Note that the associated stash is still fully unbonded and chilled as a consequence of"%string; "calling `register_fast_unstake`. This should probably be followed by a call to"%string; "`Staking::rebond`."%string]); (Variant "control"%string [(Field (Some "eras_to_check"%string) 4%N (Some "EraIndex"%string) [])] 2%N ["Control the operation of this pallet."%string; ""%string; "Dispatch origin must be signed by the [`Config::ControlOrigin`]."%string])]) ["Contains one variant per dispatchable that can be called by an extrinsic."%string]).
Definition md_t308 : ty := (Ty ["polkadot_runtime_parachains"%string; "configuration"%string; "pallet"%string; "Call"%string] [("T"%string,None)] (TVariant [(Variant "set_validation_upgrade_cooldown"%string [(Field (Some "new"%string) 4%N (Some "T::BlockNumber"%string) [])] 0%N ["Set the validation upgrade cooldown."%string]); (Variant "set_validation_upgrade_delay"%string [(Field (Some "new"%string) 4%N (Some "T::BlockNumber"%string) [])] 1%N ["Set the validation upgrade delay."%string]); (Variant "set_code_retention_period"%string [(Field (Some "new"%string) 4%N (Some "T::BlockNumber"%string) [])] 2%N ["Set the acceptance period for an included candidate."%string]); (Variant "set_max_code_size"%string [(Field (Some "new"%string) 4%N (Some "u32"%string) [])] 3%N ["Set the max validation code size for incoming upgrades."%string]); (Variant "set_max_pov_size"%string [(Field (Some "new"%string) 4%N (Some "u32"%string) [])] 4%N ["Set the max POV block size for incoming upgrades."%string]); (Variant "set_max_head_data_size"%string [(Field (Some "new"%string) 4%N (Some "u32"%string) [])] 5%N ["Set the max head data size for paras."%string]); (Variant "set_parathread_cores"%string [(Field (Some "new"%string) 4%N (Some "u32"%string) [])] 6%N ["Set the number of parathread execution cores."%string]); (Variant "set_parathread_retries"%string [(Field (Some "new"%string) 4%N (Some "u32"%string) [])] 7%N ["Set the number of retries for a particular parathread."%string]); (Variant "set_group_rotation_frequency"%string [(Field (Some "new"%string) 4%N (Some "T::BlockNumber"%string) [])] 8%N ["Set the parachain validator-group rotation frequency"%string]); (Variant "set_chain_availability_period"%string [(Field (Some "new"%string) 4%N (Some "T::BlockNumber"%string) [])] 9%N ["Set the availability period for parachains."%string]); (Variant "set_thread_availability_period"%string [(Field (Some "new"%string) 4%N (Some "T::BlockNumber"%string) [])] 10%N ["Set the availability period for parathreads."%string]); (Variant "set_scheduling_lookahead"%string [(Field (Some "new"%string) 4%N (Some "u32"%string) [])] 11%N ["Set the scheduling lookahead, in expected number of blocks at peak throughput."%string]); (Variant "set_max_validators_per_core"%string [(Field (Some "new"%string) 141%N (Some "Option<u32>"%string) [])] 12%N ["Set the maximum number of validators to assign to any core."%string]); (Variant "set_max_validators"%string [(Field (Some "new"%string) 141%N (Some "Option<u32>"%string) [])] 13%N ["Set the maximum number of validators to use in parachain consensus."%string]); (Variant "set_dispute_period"%string [(Field (Some "new"%string) 4%N (Some "SessionIndex"%string) [])] 14%N ["Set the dispute period, in number of sessions to keep for disputes."%string]); (Variant "set_dispute_post_conclusion_acceptance_period"%string [(Field (Some "new"%string) 4%N (Some "T::BlockNumber"%string) [])] 15%N ["Set the dispute post conclusion acceptance period."%string]); (Variant "set_no_show_slots"%string [(Field (Some "new"%string) 4%N (Some "u32"%string) [])] 18%N ["Set the no show slots, in number of number of consensus slots."%string; "Must be at least 1."%string]); (Variant "set_n_delay_tranches"%string [(Field (Some "new"%string) 4%N (Some "u32"%string) [])] 19%N ["Set the total number of delay tranches."%string]); (Variant "set_zeroth_delay_tranche_width"%string [(Field (Some "new"%string) 4%N (Some "u32"%string) [])] 20%N ["Set the zeroth delay tranche width."%string]); (Variant "set_needed_approvals"%string [(Field (Some "new"%string) 4%N (Some "u32"%string) [])] 21%N ["Set the number of validators needed to approve a block."%string]); (Variant "set_relay_vrf_modulo_samples"%string [(Field (Some "new"%string) 4%N (Some "u32"%string) [])] 22%N ["Set the number of samples to do of the `RelayVRFModulo` approval assignment criterion."%string]); (Variant "set_max_upward_queue_count"%string [(Field (Some "new"%string) 4%N (Some "u32"%string) [])] 23%N ["Sets the maximum items that can present in a upward dispatch queue at once."%string]); (Variant "set_max_upward_queue_size"%string [(Field (Some "new"%string) 4%N (Some "u32"%string) [])] 24%N ["Sets the maximum total size of items that can present in a upward dispatch queue at once."%string]); (Variant "set_max_downward_message_size"%string [(Field (Some "new"%string) 4%N (Some "u32"%string) [])] 25%N ["Set the critical downward message size."%string]); (Variant "set_max_upward_message_size"%string [(Field (Some "new"%string) 4%N (Some "u32"%string) [])] 27%N ["Sets the maximum size of an upward message that can be sent by a candidate."%string]); (Variant "set_max_upward_message_num_per_candidate"%string [(Field (Some "new"%string) 4%N (Some "u32"%string) [])] 28%N ["Sets the maximum number of messages that a candidate can contain."%string]); (Variant "set_hrmp_open_request_ttl"%string [(Field (Some "new"%string) 4%N (Some "u32"%string) [])] 29%N ["Sets the number of sessions after which an HRMP open channel request expires."%string]); (Variant "set_hrmp_sender_deposit"%string [(Field (Some "new"%string) 6%N (Some "Balance"%string) [])] 30%N ["Sets the amount of funds that the sender should provide for opening an HRMP channel."%string]); (Variant "set_hrmp_recipient_deposit"%string [(Field (Some "new"%string) 6%N (Some "Balance"%string) [])] 31%N ["Sets the amount of funds that the recipient should provide for accepting opening an HRMP"%string; "channel."%string]); (Variant "set_hrmp_channel_max_capacity"%string [(Field (Some "new"%string) 4%N (Some "u32"%string) [])] 32%N ["Sets the maximum number of messages allowed in an HRMP channel at once."%string]); (Variant "set_hrmp_channel_max_total_size"%string [(Field (Some "new"%string) 4%N (Some "u32"%string) [])] 33%N ["Sets the maximum total size of messages in bytes allowed in an HRMP channel at once."%string]); (Variant "set_hrmp_max_parachain_inbound_channels"%string [(Field (Some "new"%string) 4%N (Some "u32"%string) [])] 34%N ["Sets the maximum number of inbound HRMP channels a parachain is allowed to accept."%string]); (Variant "set_hrmp_max_parathread_inbound_channels"%string [(Field (Some "new"%string) 4%N (Some "u32"%string) [])] 35%N ["Sets the maximum number of inbound HRMP channels a parathread is allowed to accept."%string]); (Variant "set_hrmp_channel_max_message_size"%string [(Field (Some "new"%string) 4%N (Some "u32"%string) [])] 36%N ["Sets the maximum size of a message that could ever be put into an HRMP channel."%string]); (Variant "set_hrmp_max_parachain_outbound_channels"%string [(Field (Some "new"%string) 4%N (Some "u32"%string) [])] 37%N ["Sets the maximum number of outbound HRMP channels a parachain is allowed to open."%string]); (Variant "set_hrmp_max_parathread_outbound_channels"%string [(Field (Some "new"%string) 4%N (Some "u32"%string) [])] 38%N ["Sets the maximum number of outbound HRMP channels a parathread is allowed to open."%string]); (Variant "set_hrmp_max_message_num_per_candidate"%string [(Field (Some "new"%string) 4%N (Some "u32"%string) [])] 39%N ["Sets the maximum number of outbound HRMP messages can be sent by a candidate."%string]); (Variant "set_pvf_checking_enabled"%string [(Field (Some "new"%string) 44%N (Some "bool"%string) [])] 41%N ["Enable or disable PVF pre-checking. Consult the field documentation prior executing."%string]); (Variant "set_pvf_voting_ttl"%string [(Field (Some "new"%string) 4%N (Some "SessionIndex"%string) [])] 42%N ["Set the number of session changes after which a PVF pre-checking voting is rejected."%string]); (Variant "set_minimum_validation_upgrade_delay"%string [(Field (Some "new"%string) 4%N (Some "T::BlockNumber"%string) [])] 43%N ["Sets the minimum delay between announcing the upgrade block for a parachain until the"%string; "upgrade taking place."%string; ""%string; "See the field documentation for information and constraints for the new value."%string]); (Variant "set_bypass_consistency_check"%string [(Field (Some "new"%string) 44%N (Some "bool"%string) [])] 44%N ["Setting this to true will disable consistency checks for the configuration setters."%string; "Use with caution."%string]); (Variant "set_async_backing_params"%string [(Field (Some "new"%string) 309%N (Some "AsyncBackingParams"%string) [])] 45%N ["Set the asynchronous backing parameters."%string]); (Variant "set_executor_params"%string [(Field (Some "new"%string) 310%N (Some "ExecutorParams"%string) [])] 46%N ["Set PVF executor parameters."%string])]) ["Contains one variant per dispatchable that can be called by an extrinsic."%string]).
Definition md_t309 : ty := (Ty ["polkadot_primitives"%string; "vstaging"%string; "AsyncBackingParams"%string] [] (TComposite [(Field (Some "max_candidate_depth"%string) 4%N (Some "u32"%string) []); (Field (Some "allowed_ancestry_len"%string) 4%N (Some "u32"%string) [])]) []).
Definition md_t310 : ty := (Ty ["polkadot_primitives"%string; "v4"%string; "executor_params"%string; "ExecutorParams"%string] [] (TComposite [(Field None 311%N (Some "Vec<ExecutorParam>"%string) [])]) []).
Definition md_t311 : ty := (Ty [] [] (TSequence 312%N) []).
Definition md_t312 : ty := (Ty ["polkadot_primitives"%string; "v4"%string; "executor_params"%string; "ExecutorParam"%string] [] (TVariant [(Variant "MaxMemoryPages"%string [(Field None 4%N (Some "u32"%string) [])] 1%N []); (Variant "StackLogicalMax"%string [(Field None 4%N (Some "u32"%string) [])] 2%N []); (Variant "StackNativeMax"%string [(Field None 4%N (Some "u32"%string) [])] 3%N []); (Variant "PrecheckingMaxMemory"%string [(Field None 11%N (Some "u64"%string) [])] 4%N []); (Variant "PvfPrepTimeout"%string [(Field None 313%N (Some "PvfPrepTimeoutKind"%string) []); (Field None 11%N (Some "u64"%string) [])] 5%N []); (Variant "PvfExecTimeout"%string [(Field None 314%N (Some "PvfExecTimeoutKind"%string) []); (Field None 11%N (Some "u64"%string) [])] 6%N []); (Variant "WasmExtBulkMemory"%string [] 7%N [])]) []).
Definition md_t313 : ty := (Ty ["polkadot_primitives"%string; "v4"%string; "PvfPrepTimeoutKind"%string] [] (TVariant [(Variant "Precheck"%string [] 0%N []); (Variant "Lenient"%string [] 1%N [])]) []).
Definition md_t314 : ty := (Ty ["polkadot_primitives"%string; "v4"%string; "PvfExecTimeoutKind"%string] [] (TVariant [(Variant "Backing"%string [] 0%N []); (Variant "Approval"%string [] 1%N [])]) []).
Definition md_t315 : ty := (Ty ["polkadot_runtime_parachains"%string; "shared"%string; "pallet"%string; "Call"%string] [("T"%string,None)] (TVariant []) ["Contains one variant per dispatchable that can be called by an extrinsic."%string]).
Definition md_t316 : ty := (Ty ["polkadot_runtime_parachains"%string; "inclusion"%string; "pallet"%string; "Call"%string] [("T"%string,None)] (TVariant []) ["Contains one variant per dispatchable that can be called by an extrinsic."%string]).
Definition md_t317 : ty := (Ty ["polkadot_runtime_parachains"%string; "paras_inherent"%string; "pallet"%string; "Call"%string] [("T"%string,None)] (TVariant [(Variant "enter"%string [(Field (Some "data"%string) 318%N (Some "ParachainsInherentData<T::Header>"%string) [])] 0%N ["Enter the paras inherent. This will process bitfields and backed candidates."%string])]) ["Contains one variant per dispatchable that can be called by an extrinsic."%string]).
Definition md_t318 : ty := (Ty ["polkadot_primitives"%string; "v4"%string; "InherentData"%string] [("HDR"%string,(Some 89%N))] (TComposite [(Field (Some "bitfields"%string) 319%N (Some "UncheckedSignedAvailabilityBitfields"%string) []); (Field (Some "backed_candidates"%string) 326%N (Some "Vec<BackedCandidate<HDR::Hash>>"%string) []); (Field (Some "disputes"%string) 343%N (Some "MultiDisputeStatementSet"%string) []); (Field (Some "parent_header"%string) 89%N (Some "HDR"%string) [])]) []).
Definition md_t319 : ty := (Ty [] [] (TSequence 320%N) []).
Definition md_t320 : ty := (Ty ["polkadot_primitives"%string; "v4"%string; "signed"%string; "UncheckedSigned"%string] [("Payload"%string,(Some 321%N)); ("RealPayload"%string,(Some 321%N))] (TComposite [(Field (Some "payload"%string) 321%N (Some "Payload"%string) []); (Field (Some "validator_index"%string) 324%N (Some "ValidatorIndex"%string) []); (Field (Some "signature"%string) 325%N (Some "ValidatorSignature"%string) [])]) []).
Definition md_t321 : ty := (Ty ["polkadot_primitives"%string; "v4"%string; "AvailabilityBitfield"%string] [] (TComposite [(Field None 322%N (Some "BitVec<u8, bitvec::order::Lsb0>"%string) [])]) []).
Definition md_t322 : ty := (Ty [] [] (TBitSequence 2%N 323%N) []).
Definition md_t323 : ty := (Ty ["bitvec"%string; "order"%string; "Lsb0"%string] [] (TComposite []) []).
Definition md_t324 : ty := (Ty ["polkadot_primitives"%string; "v4"%string; "ValidatorIndex"%string] [] (TComposite [(Field None 4%N (Some "u32"%string) [])]) []).
Definition md_t325 : ty := (Ty ["polkadot_primitives"%string; "v4"%string; "validator_app"%string; "Signature"%string] [] (TComposite [(Field None 138%N (Some "sr25519::Signature"%string) [])]) []).
Definition md_t326 : ty := (Ty [] [] (TSequence 327%N) []).
Definition md_t327 : ty := (Ty ["polkadot_primitives"%string; "v4"%string; "BackedCandidate"%string] [("H"%string,(Some 12%N))] (TComposite [(Field (Some "candidate"%string) 328%N (Some "CommittedCandidateReceipt<H>"%string) []); (Field (Some "validity_votes"%string) 341%N (Some "Vec<ValidityAttestation>"%string) []); (Field (Some "validator_indices"%string) 322%N (Some "BitVec<u8, bitvec::order::Lsb0>"%string) [])]) []).
Definition md_t328 : ty := (Ty ["polkadot_primitives"%string; "v4"%string; "CommittedCandidateReceipt"%string] [("H"%string,(Some 12%N))] (TComposite [(Field (Some "descriptor"%string) 329%N (Some "CandidateDescriptor<H>"%string) []); (Field (Some "commitments"%string) 333%N (Some "CandidateCommitments"%string) [])]) []).
Definition md_t329 : ty := (Ty ["polkadot_primitives"%string; "v4"%string; "CandidateDescriptor"%string] [("H"%string,(Some 12%N))] (TComposite [(Field (Some "para_id"%string) 162%N (Some "Id"%string) []); (Field (Some "relay_parent"%string) 12%N (Some "H"%string) []); (Field (Some "collator"%string) 330%N (Some "CollatorId"%string) []); (Field (Some "persisted_validation_data_hash"%string) 12%N (Some "Hash"%string) []); (Field (Some "pov_hash"%string) 12%N (Some "Hash"%string) []); (Field (Some "erasure_root"%string) 12%N (Some "Hash"%string) []); (Field (Some "signature"%string) 331%N (Some "CollatorSignature"%string) []); (Field (Some "para_head"%string) 12%N (Some "Hash"%string) []); (Field (Some "validation_code_hash"%string) 332%N (Some "ValidationCodeHash"%string) [])]) []).
Definition md_t330 : ty := (Ty ["polkadot_primitives"%string; "v4"%string; "collator_app"%string; "Public"%string] [] (TComposite [(Field None 56%N (Some "sr25519::Public"%string) [])]) []).
Definition md_t331 : ty := (Ty ["polkadot_primitives"%string; "v4"%string; "collator_app"%string; "Signature"%string] [] (TComposite [(Field None 138%N (Some "sr25519::Signature"%string) [])]) []).
Definition md_t332 : ty := (Ty ["polkadot_parachain"%string; "primitives"%string; "ValidationCodeHash"%string] [] (TComposite [(Field None 12%N (Some "Hash"%string) [])]) []).
Definition md_t333 : ty := (Ty ["polkadot_primitives"%string; "v4"%string; "CandidateCommitments"%string] [("N"%string,(Some 4%N))] (TComposite [(Field (Some "upward_messages"%string) 334%N (Some "UpwardMessages"%string) []); (Field (Some "horizontal_messages"%string) 335%N (Some "HorizontalMessages"%string) []); (Field (Some "new_validation_code"%string) 338%N (Some "Option<ValidationCode>"%string) []); (Field (Some "head_data"%string) 340%N (Some "HeadData"%string) []); (Field (Some "processed_downward_messages"%string) 4%N (Some "u32"%string) []); (Field (Some "hrmp_watermark"%string) 4%N (Some "N"%string) [])]) []).
Definition md_t334 : ty := (Ty ["bounded_collections"%string; "bounded_vec"%string; "BoundedVec"%string] [("T"%string,(Some 13%N)); ("S"%string,None)] (TComposite [(Field None 83%N (Some "Vec<T>"%string) [])]) []).
Definition md_t335 : ty := (Ty ["bounded_collections"%string; "bounded_vec"%string; "BoundedVec"%string] [("T"%string,(Some 336%N)); ("S"%string,None)] (TComposite [(Field None 337%N (Some "Vec<T>"%string) [])]) []).
Definition md_t336 : ty := (Ty ["polkadot_core_primitives"%string; "OutboundHrmpMessage"%string] [("Id"%string,(Some 162%N))] (TComposite [(Field (Some "recipient"%string) 162%N (Some "Id"%string) []); (Field (Some "data"%string) 13%N (Some "sp_std::vec::Vec<u8>"%string) [])]) []).
Definition md_t337 : ty := (Ty [] [] (TSequence 336%N) []).
Definition md_t338 : ty := (Ty ["Option"%string] [("T"%string,(Some 339%N))] (TVariant [(Variant "None"%string [] 0%N []); (Variant "Some"%string [(Field None 339%N None [])] 1%N [])]) []).
Definition md_t339 : ty := (Ty ["polkadot_parachain"%string; "primitives"%string; "ValidationCode"%string] [] (TComposite [(Field None 13%N (Some "Vec<u8>"%string) [])]) []).
Definition md_t340 : ty := (Ty ["polkadot_parachain"%string; "primitives"%string; "HeadData"%string] [] (TComposite [(Field None 13%N (Some "Vec<u8>"%string) [])]) []).
Definition md_t341 : ty := (Ty [] [] (TSequence 342%N) []).
Definition md_t342 : ty := (Ty ["polkadot_primitives"%string; "v4"%string; "ValidityAttestation"%string] [] (TVariant [(Variant "Implicit"%string [(Field None 325%N (Some "ValidatorSignature"%string) [])] 1%N []); (Variant "Explicit"%string [(Field None 325%N (Some "ValidatorSignature"%string) [])] 2%N [])]) []).
Definition md_t343 : ty := (Ty [] [] (TSequence 344%N) []).
Definition md_t344 : ty := (Ty ["polkadot_primitives"%string; "v4"%string; "DisputeStatementSet"%string] [] (TComposite [(Field (Some "candidate_hash"%string) 345%N (Some "CandidateHash"%string) []); (Field (Some "session"%string) 4%N (Some "SessionIndex"%string) []); (Field (Some "statements"%string) 346%N (Some "Vec<(DisputeStatement, ValidatorIndex, ValidatorSignature)>"%string) [])]) []).
Definition md_t345 : ty := (Ty ["polkadot_core_primitives"%string; "CandidateHash"%string] [] (TComposite [(Field None 12%N (Some "Hash"%string) [])]) []).
Definition md_t346 : ty := (Ty [] [] (TSequence 347%N) []).
Definition md_t347 : ty := (Ty [] [] (TTuple [348%N; 324%N; 325%N]) []).
Definition md_t348 : ty := (Ty ["polkadot_primitives"%string; "v4"%string; "DisputeStatement"%string] [] (TVariant [(Variant "Valid"%string [(Field None 349%N (Some "ValidDisputeStatementKind"%string) [])] 0%N []); (Variant "Invalid"%string [(Field None 350%N (Some "InvalidDisputeStatementKind"%string) [])] 1%N [])]) []).
Definition md_t349 : ty := (Ty ["polkadot_primitives"%string; "v4"%string; "ValidDisputeStatementKind"%string] [] (TVariant [(Variant "Explicit"%string [] 0%N []); (Variant "BackingSeconded"%string [(Field None 12%N (Some "Hash"%string) [])] 1%N []); (Variant "BackingValid"%string [(Field None 12%N (Some "Hash"%string) [])] 2%N []); (Variant "ApprovalChecking"%string [] 3%N [])]) []).
Definition md_t350 : ty := (Ty ["polkadot_primitives"%string; "v4"%string; "InvalidDisputeStatementKind"%string] [] (TVariant [(Variant "Explicit"%string [] 0%N [])]) []).
Definition md_t351 : ty := (Ty ["polkadot_runtime_parachains"%string; "paras"%string; "pallet"%string; "Call"%string] [("T"%string,None)] (TVariant [(Variant "force_set_current_code"%string [(Field (Some "para"%string) 162%N (Some "ParaId"%string) []); (Field (Some "new_code"%string) 339%N (Some "ValidationCode"%string) [])] 0%N ["Set the storage for the parachain validation code immediately."%string]); (Variant "force_set_current_head"%string [(Field (Some "para"%string) 162%N (Some "ParaId"%string) []); (Field (Some "new_head"%string) 340%N (Some "HeadData"%string) [])] 1%N ["Set the storage for the current parachain head data immediately."%string]); (Variant "force_schedule_code_upgrade"%string [(Field (Some "para"%string) 162%N (Some "ParaId"%string) []); (Field (Some "new_code"%string) 339%N (Some "ValidationCode"%string) []); (Field (Some "relay_parent_number"%string) 4%N (Some "T::BlockNumber"%string) [])] 2%N ["Schedule an upgrade as if it was scheduled in the given relay parent block."%string]); (Variant "force_note_new_head"%string [(Field (Some "para"%string) 162%N (Some "ParaId"%string) []); (Field (Some "new_head"%string) 340%N (Some "HeadData"%string) [])] 3%N ["Note a new block head for para within the context of the current block."%string]); (Variant "force_queue_action"%string [(Field (Some "para"%string) 162%N (Some "ParaId"%string) [])] 4%N ["Put a parachain directly into the next session's action queue."%string; "We can't queue it any sooner than this without going into the"%string; "initializer..."%string]); (Variant "add_trusted_validation_code"%string [(Field (Some "validation_code"%string) 339%N (Some "ValidationCode"%string) [])] 5%N ["Adds the validation code to the storage."%string; ""%string; "The code will not be added if it is already present. Additionally, if PVF pre-checking"%string; "is running for that code, it will be instantly accepted."%string; ""%string; "Otherwise, the code will be added into the storage. Note that the code will be added"%string; "into storage with reference count 0. This is to account the fact that there are no users"%string; "for this code yet. The caller will have to make sure that this code eventually gets"%string; "used by some parachain or removed from the storage to avoid storage leaks. For the latter"%string; "prefer to use the `poke_unused_validation_code` dispatchable to raw storage manipulation."%string; ""%string; "This function is mainly meant to be used for upgrading parachains that do not follow"%string; "the go-ahead signal while the PVF pre-checking feature is enabled."%string]); (Variant "poke_unused_validation_code"%string [(Field (Some "validation_code_hash"%string) 332%N (Some "ValidationCodeHash"%string) [])] 6%N ["Remove the validation code from the storage iff the reference count is 0."%string; ""%string; "This is better than removing the storage directly, because it will not remove the code"%string; "that was suddenly got used by some parachain while this dispatchable was pending"%string; "dispatching."%string]); (Variant "include_pvf_check_statement"%string [(Field (Some "stmt"%string) 352%N (Some "PvfCheckStatement"%string) []); (Field (Some "signature"%string) 325%N (Some "ValidatorSignature"%string) [])] 7%N ["Includes a statement for a PVF pre-checking vote. Potentially, finalizes the vote and"%string; "enacts the results if that was the last vote before achieving the supermajority."%string])]) ["Contains one variant per dispatchable that can be called by an extrinsic."%string]).
Definition md_t352 : ty := (Ty ["polkadot_primitives"%string; "v4"%string; "PvfCheckStatement"%string] [] (TComposite [(Field (Some "accept"%string) 44%N (Some "bool"%string) []); (Field (Some "subject"%string) 332%N (Some "ValidationCodeHash"%string) []); (Field (Some "session_index"%string) 4%N (Some "SessionIndex"%string) []); (Field (Some "validator_index"%string) 324%N (Some "ValidatorIndex"%string) [])]) []).
Definition md_t353 : ty := (Ty ["polkadot_runtime_parachains"%string; "initializer"%string; "pallet"%string; "Call"%string] [("T"%string,None)] (TVariant [(Variant "force_approve"%string [(Field (Some "up_to"%string) 4%N (Some "BlockNumber"%string) [])] 0%N ["Issue a signal to the consensus engine to forcibly act as though all parachain"%string; "blocks in all relay chain blocks up to and including the given number in the current"%string; "chain are valid and should be finalized."%string])]) ["Contains one variant per dispatchable that can be called by an extrinsic."%string]).
Definition md_t354 : ty := (Ty ["polkadot_runtime_parachains"%string; "hrmp"%string; "pallet"%string; "Call"%string] [("T"%string,None)] (TVariant [(Variant "hrmp_init_open_channel"%string [(Field (Some "recipient"%string) 162%N (Some "ParaId"%string) []); (Field (Some "proposed_max_capacity"%string) 4%N (Some "u32"%string) []); (Field (Some "proposed_max_message_size"%string) 4%N (Some "u32"%string) [])] 0%N ["Initiate opening a channel from a parachain to a given recipient with given channel"%string; "parameters."%string; ""%string; "- `proposed_max_capacity` - specifies how many messages can be in the channel at once."%string; "- `proposed_max_message_size` - specifies the maximum size of the messages."%string; ""%string; "These numbers are a subject to the relay-chain configuration limits."%string; ""%string; "The channel can be opened only after the recipient confirms it and only on a session"%string; "change."%string]); (Variant "hrmp_accept_open_channel"%string [(Field (Some "sender"%string) 162%N (Some "ParaId"%string) [])] 1%N ["Accept a pending open channel request from the given sender."%string; ""%string; "The channel will be opened only on the next session boundary."%string]); (Variant "hrmp_close_channel"%string [(Field (Some "channel_id"%string) 355%N (Some "HrmpChannelId"%string) [])] 2%N ["Initiate unilateral closing of a channel. The origin must be either the sender or the"%string; "recipient in the channel being closed."%string; ""%string; "The closure can only happen on a session change."%string]); (Variant "force_clean_hrmp"%string [(Field (Some "para"%string) 162%N (Some "ParaId"%string) []); (Field (Some "inbound"%string) 4%N (Some "u32"%string) []); (Field (Some "outbound"%string) 4%N (Some "u32"%string) [])] 3%N ["This extrinsic triggers the cleanup of all the HRMP storage items that"%string; "a para may have. Normally this happens once per session, but this allows"%string; "you to trigger the cleanup immediately for a specific parachain."%string; ""%string; "Origin must be Root."%string; ""%string; "Number of inbound and outbound channels for `para` must be provided as witness data of weighing."%string]); (Variant "force_process_hrmp_open"%string [(Field (Some "channels"%string) 4%N (Some "u32"%string) [])] 4%N ["Force process HRMP open channel requests."%string; ""%string; "If there are pending HRMP open channel requests, you can use this"%string; "function process all of those requests immediately."%string; ""%string; "Total number of opening channels must be provided as witness data of weighing."%string]); (Variant "force_process_hrmp_close"%string [(Field (Some "channels"%string) 4%N (Some "u32"%string) [])] 5%N ["Force process HRMP close channel requests."%string; ""%string; "If there are pending HRMP close channel requests, you can use this"%string; "function process all of those requests immediately."%string; ""%string; "Total number of closing channels must be provided as witness data of weighing."%string]); (Variant "hrmp_cancel_open_request"%string [(Field (Some "channel_id"%string) 355%N (Some "HrmpChannelId"%string) []); (Field (Some "open_requests"%string) 4%N (Some "u32"%string) [])] 6%N ["This cancels a pending open channel request. It can be canceled by either of the sender"%string; "or the recipient for that request. The origin must be either of those."%string; ""%string; "The cancellation happens immediately. It is not possible to cancel the request if it is"%string; "already accepted."%string; ""%string; "Total number of open requests (i.e. `HrmpOpenChannelRequestsList`) must be provided as"%string; "witness data."%string]); (Variant "force_open_hrmp_channel"%string [(Field (Some "sender"%string) 162%N (Some "ParaId"%string) []); (Field (Some "recipient"%string) 162%N (Some "ParaId"%string) []); (Field (Some "max_capacity"%string) 4%N (Some "u32"%string) []); (Field (Some "max_message_size"%string) 4%N (Some "u32"%string) [])] 7%N ["Open a channel from a `sender` to a `recipient` `ParaId` using the Root origin. Although"%string; "opened by Root, the `max_capacity` and `max_message_size` are still subject to the Relay"%string; "Chain's configured limits."%string; ""%string; "Expected use is when one of the `ParaId`s involved in the channel is governed by the"%string; "Relay Chain, e.g. a common good parachain."%string])]) ["Contains one variant per dispatchable that can be called by an extrinsic."%string]).
Definition md_t355 : ty := (Ty ["polkadot_parachain"%string; "primitives"%string; "HrmpChannelId"%string] [] (TComposite [(Field (Some "sender"%string) 162%N (Some "Id"%string) []); (Field (Some "recipient"%string) 162%N (Some "Id"%string) [])]) []).
Definition md_t356 : ty := (Ty ["polkadot_runtime_parachains"%string; "disputes"%string; "pallet"%string; "Call"%string] [("T"%string,None)] (TVariant [(Variant "force_unfreeze"%string [] 0%N [])]) ["Contains one variant per dispatchable that can be called by an extrinsic."%string]).
Definition md_t357 : ty := (Ty ["polkadot_runtime_parachains"%string; "disputes"%string; "slashing"%string; "pallet"%string; "Call"%string] [("T"%string,None)] (TVariant [(Variant "report_dispute_lost_unsigned"%string [(Field (Some "dispute_proof"%string) 358%N (Some "Box<DisputeProof>"%string) []); (Field (Some "key_owner_proof"%string) 94%N (Some "T::KeyOwnerProof"%string) [])] 0%N [])]) ["Contains one variant per dispatchable that can be called by an extrinsic."%string]).
Definition md_t358 : ty := (Ty ["polkadot_runtime_parachains"%string; "disputes"%string; "slashing"%string; "DisputeProof"%string] [] (TComposite [(Field (Some "time_slot"%string) 359%N (Some "DisputesTimeSlot"%string) []); (Field (Some "kind"%string) 360%N (Some "SlashingOffenceKind"%string) []); (Field (Some "validator_index"%string) 324%N (Some "ValidatorIndex"%string) []); (Field (Some "validator_id"%string) 116%N (Some "ValidatorId"%string) [])]) []).
Definition md_t359 : ty := (Ty ["polkadot_runtime_parachains"%string; "disputes"%string; "slashing"%string; "DisputesTimeSlot"%string] [] (TComposite [(Field (Some "session_index"%string) 4%N (Some "SessionIndex"%string) []); (Field (Some "candidate_hash"%string) 345%N (Some "CandidateHash"%string) [])]) []).
Definition md_t360 : ty := (Ty ["polkadot_runtime_parachains"%string; "disputes"%string; "slashing"%string; "SlashingOffenceKind"%string] [] (TVariant [(Variant "ForInvalid"%string [] 0%N []); (Variant "AgainstValid"%string [] 1%N [])]) []).
Definition md_t361 : ty := (Ty ["polkadot_runtime_common"%string; "paras_registrar"%string; "pallet"%string; "Call"%string] [("T"%string,None)] (TVariant [(Variant "register"%string [(Field (Some "id"%string) 162%N (Some "ParaId"%string) []); (Field (Some "genesis_head"%string) 340%N (Some "HeadData"%string) []); (Field (Some "validation_code"%string) 339%N (Some "ValidationCode"%string) [])] 0%N ["Register head data and validation code for a reserved Para Id."%string; ""%string; "## Arguments"%string; "- `origin`: Must be called by a `Signed` origin."%string; "- `id`: The para ID. Must be owned/managed by the `origin` signing account."%string; "- `genesis_head`: The genesis head data of the parachain/thread."%string; "- `validation_code`: The initial validation code of the parachain/thread."%string; ""%string; "## Deposits/Fees"%string; "The origin signed account must reserve a corresponding deposit for the registration. Anything already"%string; "reserved previously for this para ID is accounted for."%string; ""%string; "## Events"%string; "The `Registered` event is emitted in case of success."%string]); (Variant "force_register"%string [(Field (Some "who"%string) 0%N (Some "T::AccountId"%string) []); (Field (Some "deposit"%string) 6%N (Some "BalanceOf<T>"%string) []); (Field (Some "id"%string) 162%N (Some "ParaId"%string) []); (Field (Some "genesis_head"%string) 340%N (Some "HeadData"%string) []); (Field (Some "validation_code"%string) 339%N (Some "ValidationCode"%string) [])] 1%N ["Force the registration of a Para Id on the relay chain."%string; ""%string; "This function must be called by a Root origin."%string; ""%string; "The deposit taken can be specified for this registration. Any `ParaId`"%string; "can be registered, including sub-1000 IDs which are System Parachains."%string]); (Variant "deregister"%string [(Field (Some "id"%string) 162%N (Some "ParaId"%string) [])] 2%N ["Deregister a Para Id, freeing all data and returning any deposit."%string; ""%string; "The caller must be Root, the `para` owner, or the `para` itself. The para must be a parathread."%string]); (Variant "swap"%string [(Field (Some "id"%string) 162%N (Some "ParaId"%string) []); (Field (Some "other"%string) 162%N (Some "ParaId"%string) [])] 3%N ["Swap a parachain with another parachain or parathread."%string; ""%string; "The origin must be Root, the `para` owner, or the `para` itself."%string; ""%string; "The swap will happen only if there is already an opposite swap pending. If there is not,"%string; "the swap will be stored in the pending swaps map, ready for a later confirmatory swap."%string; ""%string; "The `ParaId`s remain mapped to the same head data and code so external code can rely on"%string; "`ParaId` to be a long-term identifier of a notional ""parachain"". However, their"%string; "scheduling info (i.e. whether they're a parathread or parachain), auction information"%string; "and the auction deposit are switched."%string]); (Variant "remove_lock"%string [(Field (Some "para"%string) 162%N (Some "ParaId"%string) [])] 4%N ["Remove a manager lock from a para. This will allow the manager of a"%string; "previously locked para to deregister or swap a para without using governance."%string; ""%string; "Can only be called by the Root origin or the parachain."%string]); (Variant "reserve"%string [] 5%N ["Reserve a Para Id on the relay chain."%string; ""%string; "This function will reserve a new Para Id to be owned/managed by the origin account."%string; "The origin account is able to register head data and validation code using `register` to create"%string; "a parathread. Using the Slots pallet, a parathread can then be upgraded to get a parachain slot."%string; ""%string; "## Arguments"%string; "- `origin`: Must be called by a `Signed` origin. Becomes the manager/owner of the new para ID."%string; ""%string; "## Deposits/Fees"%string; "The origin must reserve a deposit of `ParaDeposit` for the registration."%string; ""%string; "## Events"%string; "The `Reserved` event is emitted in case of success, which provides the ID reserved for use."%string]); (Variant "add_lock"%string [(Field (Some "para"%string) 162%N (Some "ParaId"%string) [])] 6%N ["Add a manager lock from a para. This will prevent the manager of a"%string; "para to deregister or swap a para."%string; ""%string; "Can be called by Root, the parachain, or the parachain manager if the parachain is unlocked."%string]); (Variant "schedule_code_upgrade"%string [(Field (Some "para"%string) 162%N (Some "ParaId"%string) []); (Field (Some "new_code"%string) 339%N (Some "ValidationCode"%string) [])] 7%N ["Schedule a parachain upgrade."%string; ""%string; "Can be called by Root, the parachain, or the parachain manager if the parachain is unlocked."%string]); (Variant "set_current_head"%string [(Field (Some "para"%string) 162%N (Some "ParaId"%string) []); (Field (Some "new_head"%string) 340%N (Some "HeadData"%string) [])] 8%N ["Set the parachain's current head."%string; ""%string; "Can be called by Root, the parachain, or the parachain manager if the parachain is unlocked."%string])]) ["Contains one variant per dispatchable that can be called by an extrinsic."%string]).
Definition md_t362 : ty := (Ty ["polkadot_runtime_common"%string; "slots"%string; "pallet"%string; "Call"%string] [("T"%string,None)] (TVariant [(Variant "force_lease"%string [(Field (Some "para"%string) 162%N (Some "ParaId"%string) []); (Field (Some "leaser"%string) 0%N (Some "T::AccountId"%string) []); (Field (Some "amount"%string) 6%N (Some "BalanceOf<T>"%string) []); (Field (Some "period_begin"%string) 4%N (Some "LeasePeriodOf<T>"%string) []); (Field (Some "period_count"%string) 4%N (Some "LeasePeriodOf<T>"%string) [])] 0%N ["Just a connect into the `lease_out` call, in case Root wants to force some lease to happen"%string; "independently of any other on-chain mechanism to use it."%string; ""%string; "The dispatch origin for this call must match `T::ForceOrigin`."%string]); (Variant "clear_all_leases"%string [(Field (Some "para"%string) 162%N (Some "ParaId"%string) [])] 1%N ["Clear all leases for a Para Id, refunding any deposits back to the original owners."%string; ""%string; "The dispatch origin for this call must match `T::ForceOrigin`."%string]); (Variant "trigger_onboard"%string [(Field (Some "para"%string) 162%N (Some "ParaId"%string) [])] 2%N ["Try to onboard a parachain that has a lease for the current lease period."%string; ""%string; "This function can be useful if there was some state issue with a para that should"%string; "have onboarded, but was unable to. As long as they have a lease period, we can"%string; "let them onboard from here."%string; ""%string; "Origin must be signed, but can be called by anyone."%string])]) ["Contains one variant per dispatchable that can be called by an extrinsic."%string]).
Definition md_t363 : ty := (Ty ["polkadot_runtime_common"%string; "auctions"%string; "pallet"%string; "Call"%string] [("T"%string,None)] (TVariant [(Variant "new_auction"%string [(Field (Some "duration"%string) 91%N (Some "T::BlockNumber"%string) []); (Field (Some "lease_period_index"%string) 91%N (Some "LeasePeriodOf<T>"%string) [])] 0%N ["Create a new auction."%string; ""%string; "This can only happen when there isn't already an auction in progress and may only be"%string; "called by the root origin. Accepts the `duration` of this auction and the"%string; "`lease_period_index` of the initial lease period of the four that are to be auctioned."%string]); (Variant "bid"%string [(Field (Some "para"%string) 364%N (Some "ParaId"%string) []); (Field (Some "auction_index"%string) 91%N (Some "AuctionIndex"%string) []); (Field (Some "first_slot"%string) 91%N (Some "LeasePeriodOf<T>"%string) []); (Field (Some "last_slot"%string) 91%N (Some "LeasePeriodOf<T>"%string) []); (Field (Some "amount"%string) 60%N (Some "BalanceOf<T>"%string) [])] 1%N ["Make a new bid from an account (including a parachain account) for deploying a new"%string; "parachain."%string; ""%string; "Multiple simultaneous bids from the same bidder are allowed only as long as all active"%string; "bids overlap each other (i.e. are mutually exclusive). Bids cannot be redacted."%string; ""%string; "- `sub` is the sub-bidder ID, allowing for multiple competing bids to be made by (and"%string; "funded by) the same account."%string; "- `auction_index` is the index of the auction to bid on. Should just be the present"%string; "value of `AuctionCounter`."%string; "- `first_slot` is the first lease period index of the range to bid on. This is the"%string; "absolute lease period index value, not an auction-specific offset."%string; "- `last_slot` is the last lease period index of the range to bid on. This is the"%string; "absolute lease period index value, not an auction-specific offset."%string; "- `amount` is the amount to bid to be held as deposit for the parachain should the"%string; "bid win. This amount is held throughout the range."%string]); (Variant "cancel_auction"%string [] 2%N ["Cancel an in-progress auction."%string; ""%string; "Can only be called by Root origin."%string])]) ["Contains one variant per dispatchable that can be called by an extrinsic."%string]).
Definition md_t364 : ty := (Ty [] [] (TCompact 162%N) []).
Definition md_t365 : ty := (Ty ["polkadot_runtime_common"%string; "crowdloan"%string; "pallet"%string; "Call"%string] [("T"%string,None)] (TVariant [(Variant "create"%string [(Field (Some "index"%string) 364%N (Some "ParaId"%string) []); (Field (Some "cap"%string) 60%N (Some "BalanceOf<T>"%string) []); (Field (Some "first_period"%string) 91%N (Some "LeasePeriodOf<T>"%string) []); (Field (Some "last_period"%string) 91%N (Some "LeasePeriodOf<T>"%string) []); (Field (Some "end"%string) 91%N (Some "T::BlockNumber"%string) []); (Field (Some "verifier"%string) 366%N (Some "Option<MultiSigner>"%string) [])] 0%N ["Create a new crowdloaning campaign for a parachain slot with the given lease period range."%string; ""%string; "This applies a lock to your parachain configuration, ensuring that it cannot be changed"%string; "by the parachain manager."%string]); (Variant "contribute"%string [(Field (Some "index"%string) 364%N (Some "ParaId"%string) []); (Field (Some "value"%string) 60%N (Some "BalanceOf<T>"%string) []); (Field (Some "signature"%string) 370%N (Some "Option<MultiSignature>"%string) [])] 1%N ["Contribute to a crowd sale. This will transfer some balance over to fund a parachain"%string; "slot. It will be withdrawable when the crowdloan has ended and the funds are unused."%string]); (Variant "withdraw"%string [(Field (Some "who"%string) 0%N (Some "T::AccountId"%string) []); (Field (Some "index"%string) 364%N (Some "ParaId"%string) [])] 2%N ["Withdraw full balance of a specific contributor."%string; ""%string; "Origin must be signed, but can come from anyone."%string; ""%string; "The fund must be either in, or ready for, retirement. For a fund to be *in* retirement, then the retirement"%string; "flag must be set. For a fund to be ready for retirement, then:"%string; "- it must not already be in retirement;"%string; "- the amount of raised funds must be bigger than the _free_ balance of the account;"%string; "- and either:"%string; "  - the block number must be at least `end`; or"%string; "  - the current lease period must be greater than the fund's `last_period`."%string; ""%string; "In this case, the fund's retirement flag is set and its `end` is reset to the current block"%string; "number."%string; ""%string; "- `who`: The account whose contribution should be withdrawn."%string; "- `index`: The parachain to whose crowdloan the contribution was made."%string]); (Variant "refund"%string [(Field (Some "index"%string) 364%N (Some "ParaId"%string) [])] 3%N ["Automatically refund contributors of an ended crowdloan."%string; "Due to weight restrictions, this function may need to be called multiple"%string; "times to fully refund all users. We will refund `RemoveKeysLimit` users at a time."%string; ""%string; "Origin must be signed, but can come from anyone."%string]); (Variant "dissolve"%string [(Field (Some "index"%string) 364%N (Some "ParaId"%string) [])] 4%N ["Remove a fund after the retirement period has ended and all funds have been returned."%string]); (Variant "edit"%string [(Field (Some "index"%string) 364%N (Some "ParaId"%string) []); (Field (Some "cap"%string) 60%N (Some "BalanceOf<T>"%string) []); (Field (Some "first_period"%string) 91%N (Some "LeasePeriodOf<T>"%string) []); (Field (Some "last_period"%string) 91%N (Some "LeasePeriodOf<T>"%string) []); (Field (Some "end"%string) 91%N (Some "T::BlockNumber"%string) []); (Field (Some "verifier"%string) 366%N (Some "Option<MultiSigner>"%string) [])] 5%N ["Edit the configuration for an in-progress crowdloan."%string; ""%string; "Can only be called by Root origin."%string]); (Variant "add_memo"%string [(Field (Some "index"%string) 162%N (Some "ParaId"%string) []); (Field (Some "memo"%string) 13%N (Some "Vec<u8>"%string) [])] 6%N ["Add an optional memo to an existing crowdloan contribution."%string; ""%string; "Origin must be Signed, and the user must have contributed to the crowdloan."%string]); (Variant "poke"%string [(Field (Some "index"%string) 162%N (Some "ParaId"%string) [])] 7%N ["Poke the fund into `NewRaise`"%string; ""%string; "Origin must be Signed, and the fund has non-zero raise."%string]); (Variant "contribute_all"%string [(Field (Some "index"%string) 364%N (Some "ParaId"%string) []); (Field (Some "signature"%string) 370%N (Some "Option<MultiSignature>"%string) [])] 8%N ["Contribute your entire balance to a crowd sale. This will transfer the entire balance of a user over to fund a parachain"%string; "slot. It will be withdrawable when the crowdloan has ended and the funds are unused."%string])]) ["Contains one variant per dispatchable that can be called by an extrinsic."%string]).
Definition md_t366 : ty := (Ty ["Option"%string] [("T"%string,(Some 367%N))] (TVariant [(Variant "None"%string [] 0%N []); (Variant "Some"%string [(Field None 367%N None [])] 1%N [])]) []).
Definition md_t367 : ty := (Ty ["sp_runtime"%string; "MultiSigner"%string] [] (TVariant [(Variant "Ed25519"%string [(Field None 53%N (Some "ed25519::Public"%string) [])] 0%N []); (Variant "Sr25519"%string [(Field None 56%N (Some "sr25519::Public"%string) [])] 1%N []); (Variant "Ecdsa"%string [(Field None 368%N (Some "ecdsa::Public"%string) [])] 2%N [])]) []).
Definition md_t368 : ty := (Ty ["sp_core"%string; "ecdsa"%string; "Public"%string] [] (TComposite [(Field None 369%N (Some "[u8; 33]"%string) [])]) []).
Definition md_t369 : ty := (Ty [] [] (TArray 33%N 2%N) []).
Definition md_t370 : ty := (Ty ["Option"%string] [("T"%string,(Some 371%N))] (TVariant [(Variant "None"%string [] 0%N []); (Variant "Some"%string [(Field None 371%N None [])] 1%N [])]) []).
Definition md_t371 : ty := (Ty ["sp_runtime"%string; "MultiSignature"%string] [] (TVariant [(Variant "Ed25519"%string [(Field None 125%N (Some "ed25519::Signature"%string) [])] 0%N []); (Variant "Sr25519"%string [(Field None 138%N (Some "sr25519::Signature"%string) [])] 1%N []); (Variant "Ecdsa"%string [(Field None 372%N (Some "ecdsa::Signature"%string) [])] 2%N [])]) []).
Definition md_t372 : ty := (Ty ["sp_core"%string; "ecdsa"%string; "Signature"%string] [] (TComposite [(Field None 176%N (Some "[u8; 65]"%string) [])]) []).
Definition md_t373 : ty := (Ty ["pallet_xcm"%string; "pallet"%string; "Call"%string] [("T"%string,None)] (TVariant [(Variant "send"%string [(Field (Some "dest"%string) 374%N (Some "Box<VersionedMultiLocation>"%string) []); (Field (Some "message"%string) 382%N (Some "Box<VersionedXcm<()>>"%string) [])] 0%N []); (Variant "teleport_assets"%string [(Field (Some "dest"%string) 374%N (Some "Box<VersionedMultiLocation>"%string) []); (Field (Some "beneficiary"%string) 374%N (Some "Box<VersionedMultiLocation>"%string) []); (Field (Some "assets"%string) 427%N (Some "Box<VersionedMultiAssets>"%string) []); (Field (Some "fee_asset_item"%string) 4%N (Some "u32"%string) [])] 1%N ["Teleport some assets from the local chain to some destination chain."%string; ""%string; "Fee payment on the destination side is made from the asset in the `assets` vector of"%string; "index `fee_asset_item`. The weight limit for fees is not provided and thus is unlimited,"%string; "with all fees taken as needed from the asset."%string; ""%string; "- `origin`: Must be capable of withdrawing the `assets` and executing XCM."%string; "- `dest`: Destination context for the assets. Will typically be `X2(Parent, Parachain(..))` to send"%string; "  from parachain to parachain, or `X1(Parachain(..))` to send from relay to parachain."%string; "- `beneficiary`: A beneficiary location for the assets in the context of `dest`. Will generally be"%string; "  an `AccountId32` value."%string; "- `assets`: The assets to be withdrawn. The first item should be the currency used to to pay the fee on the"%string; "  `dest` side. May not be empty."%string; "- `fee_asset_item`: The index into `assets` of the item which should be used to pay"%string; "  fees."%string]); (Variant "reserve_transfer_assets"%string [(Field (Some "dest"%string) 374%N (Some "Box<VersionedMultiLocation>"%string) []); (Field (Some "beneficiary"%string) 374%N (Some "Box<VersionedMultiLocation>"%string) []); (Field (Some "assets"%string) 427%N (Some "Box<VersionedMultiAssets>"%string) []); (Field (Some "fee_asset_item"%string) 4%N (Some "u32"%string) [])] 2%N ["Transfer some assets from the local chain to the sovereign account of a destination"%string; "chain and forward a notification XCM."%string; ""%string; "Fee payment on the destination side is made from the asset in the `assets` vector of"%string; "index `fee_asset_item`. The weight limit for fees is not provided and thus is unlimited,"%string; "with all fees taken as needed from the asset."%string; ""%string; "- `origin`: Must be capable of withdrawing the `assets` and executing XCM."%string; "- `dest`: Destination context for the assets. Will typically be `X2(Parent, Parachain(..))` to send"%string; "  from parachain to parachain, or `X1(Parachain(..))` to send from relay to parachain."%string; "- `beneficiary`: A beneficiary location for the assets in the context of `dest`. Will generally be"%string; "  an `AccountId32` value."%string; "- `assets`: The assets to be withdrawn. This should include the assets used to pay the fee on the"%string; "  `dest` side."%string; "- `fee_asset_item`: The index into `assets` of the item which should be used to pay"%string; "  fees."%string]); (Variant "execute"%string [(Field (Some "message"%string) 428%N (Some "Box<VersionedXcm<<T as SysConfig>::RuntimeCall>>"%string) []); (Field (Some "max_weight"%string) 9%N (Some "Weight"%string) [])] 3%N ["Execute an XCM message from a local, signed, origin."%string; ""%string; "An event is deposited indicating whether `msg` could be executed completely or only"%string; "partially."%string; ""%string; "No more than `max_weight` will be used in its attempted execution. If this is less than the"%string; "maximum amount of weight that the message could take to be executed, then no execution"%string; "attempt will be made."%string; ""%string; "NOTE: A successful return to this does *not* imply that the `msg` was executed successfully"%string; "to completion; only that *some* of it was executed."%string]); (Variant "force_xcm_version"%string [(Field (Some "location"%string) 164%N (Some "Box<MultiLocation>"%string) []); (Field (Some "xcm_version"%string) 4%N (Some "XcmVersion"%string) [])] 4%N ["Extoll that a particular destination can be communicated with through a particular"%string; "version of XCM."%string; ""%string; "- `origin`: Must be an origin specified by AdminOrigin."%string; "- `location`: The destination that is being described."%string; "- `xcm_version`: The latest version of XCM that `location` supports."%string]); (Variant "force_default_xcm_version"%string [(Field (Some "maybe_xcm_version"%string) 141%N (Some "Option<XcmVersion>"%string) [])] 5%N ["Set a safe XCM version (the version that XCM should be encoded with if the most recent"%string; "version a destination can accept is unknown)."%string; ""%string; "- `origin`: Must be an origin specified by AdminOrigin."%string; "- `maybe_xcm_version`: The default XCM encoding version, or `None` to disable."%string]); (Variant "force_subscribe_version_notify"%string [(Field (Some "location"%string) 374%N (Some "Box<VersionedMultiLocation>"%string) [])] 6%N ["Ask a location to notify us regarding their XCM version and any changes to it."%string; ""%string; "- `origin`: Must be an origin specified by AdminOrigin."%string; "- `location`: The location to which we should subscribe for XCM version notifications."%string]); (Variant "force_unsubscribe_version_notify"%string [(Field (Some "location"%string) 374%N (Some "Box<VersionedMultiLocation>"%string) [])] 7%N ["Require that a particular destination should no longer notify us regarding any XCM"%string; "version changes."%string; ""%string; "- `origin`: Must be an origin specified by AdminOrigin."%string; "- `location`: The location to which we are currently subscribed for XCM version"%string; "  notifications which we no longer desire."%string]); (Variant "limited_reserve_transfer_assets"%string [(Field (Some "dest"%string) 374%N (Some "Box<VersionedMultiLocation>"%string) []); (Field (Some "beneficiary"%string) 374%N (Some "Box<VersionedMultiLocation>"%string) []); (Field (Some "assets"%string) 427%N (Some "Box<VersionedMultiAssets>"%string) []); (Field (Some "fee_asset_item"%string) 4%N (Some "u32"%string) []); (Field (Some "weight_limit"%string) 426%N (Some "WeightLimit"%string) [])] 8%N ["Transfer some assets from the local chain to the sovereign account of a destination"%string; "chain and forward a notification XCM."%string; ""%string; "Fee payment on the destination side is made from the asset in the `assets` vector of"%string; "index `fee_asset_item`, up to enough to pay for `weight_limit` of weight. If more weight"%string; "is needed than `weight_limit`, then the operation will fail and the assets send may be"%string; "at risk."%string; ""%string; "- `origin`: Must be capable of withdrawing the `assets` and executing XCM."%string; "- `dest`: Destination context for the assets. Will typically be `X2(Parent, Parachain(..))` to send"%string; "  from parachain to parachain, or `X1(Parachain(..))` to send from relay to parachain."%string; "- `beneficiary`: A beneficiary location for the assets in the context of `dest`. Will generally be"%string; "  an `AccountId32` value."%string; "- `assets`: The assets to be withdrawn. This should include the assets used to pay the fee on the"%string; "  `dest` side."%string; "- `fee_asset_item`: The index into `assets` of the item which should be used to pay"%string; "  fees."%string; "- `weight_limit`: The remote-side weight limit, if any, for the XCM fee purchase."%string]); (Variant "limited_teleport_assets"%string [(Field (Some "dest"%string) 374%N (Some "Box<VersionedMultiLocation>"%string) []); (Field (Some "beneficiary"%string) 374%N (Some "Box<VersionedMultiLocation>"%string) []); (Field (Some "assets"%string) 427%N (Some "Box<VersionedMultiAssets>"%string) []); (Field (Some "fee_asset_item"%string) 4%N (Some "u32"%string) []); (Field (Some "weight_limit"%string) 426%N (Some "WeightLimit"%string) [])] 9%N ["Teleport some assets from the local chain to some destination chain."%string; ""%string; "Fee payment on the destination side is made from the asset in the `assets` vector of"%string; "index `fee_asset_item`, up to enough to pay for `weight_limit` of weight. If more weight"%string; "is needed than `weight_limit`, then the operation will fail and the assets send may be"%string; "at risk."%string; ""%string; "- `origin`: Must be capable of withdrawing the `assets` and executing XCM."%string; "- `dest`: Destination context for the assets. Will typically be `X2(Parent, Parachain(..))` to send"%string; "  from parachain to parachain, or `X1(Parachain(..))` to send from relay to parachain."%string; "- `beneficiary`: A beneficiary location for the assets in the context of `dest`. Will generally be"%string; "  an `AccountId32` value."%string; "- `assets`: The assets to be withdrawn. The first item should be the currency used to to pay the fee on the"%string; "  `dest` side. May not be empty."%string; "- `fee_asset_item`: The index into `assets` of the item which should be used to pay"%string; "  fees."%string; "- `weight_limit`: The remote-side weight limit, if any, for the XCM fee purchase."%string]); (Variant "force_suspension"%string [(Field (Some "suspended"%string) 44%N (Some "bool"%string) [])] 10%N ["Set or unset the global suspension state of the XCM executor."%string; ""%string; "- `origin`: Must be an origin specified by AdminOrigin."%string; "- `suspended`: `true` to suspend, `false` to resume."%string])]) ["Contains one variant per dispatchable that can be called by an extrinsic."%string]).
Definition md_t374 : ty := (Ty ["xcm"%string; "VersionedMultiLocation"%string] [] (TVariant [(Variant "V2"%string [(Field None 375%N (Some "v2::MultiLocation"%string) [])] 1%N []); (Variant "V3"%string [(Field None 164%N (Some "v3::MultiLocation"%string) [])] 3%N [])]) []).
Definition md_t375 : ty := (Ty ["xcm"%string; "v2"%string; "multilocation"%string; "MultiLocation"%string] [] (TComposite [(Field (Some "parents"%string) 2%N (Some "u8"%string) []); (Field (Some "interior"%string) 376%N (Some "Junctions"%string) [])]) []).
Definition md_t376 : ty := (Ty ["xcm"%string; "v2"%string; "multilocation"%string; "Junctions"%string] [] (TVariant [(Variant "Here"%string [] 0%N []); (Variant "X1"%string [(Field None 377%N (Some "Junction"%string) [])] 1%N []); (Variant "X2"%string [(Field None 377%N (Some "Junction"%string) []); (Field None 377%N (Some "Junction"%string) [])] 2%N []); (Variant "X3"%string [(Field None 377%N (Some "Junction"%string) []); (Field None 377%N (Some "Junction"%string) []); (Field None 377%N (Some "Junction"%string) [])] 3%N []); (Variant "X4"%string [(Field None 377%N (Some "Junction"%string) []); (Field None 377%N (Some "Junction"%string) []); (Field None 377%N (Some "Junction"%string) []); (Field None 377%N (Some "Junction"%string) [])] 4%N []); (Variant "X5"%string [(Field None 377%N (Some "Junction"%string) []); (Field None 377%N (Some "Junction"%string) []); (Field None 377%N (Some "Junction"%string) []); (Field None 377%N (Some "Junction"%string) []); (Field None 377%N (Some "Junction"%string) [])] 5%N []); (Variant "X6"%string [(Field None 377%N (Some "Junction"%string) []); (Field None 377%N (Some "Junction"%string) []); (Field None 377%N (Some "Junction"%string) []); (Field None 377%N (Some "Junction"%string) []); (Field None 377%N (Some "Junction"%string) []); (Field None 377%N (Some "Junction"%string) [])] 6%N []); (Variant "X7"%string [(Field None 377%N (Some "Junction"%string) []); (Field None 377%N (Some "Junction"%string) []); (Field None 377%N (Some "Junction"%string) []); (Field None 377%N (Some "Junction"%string) []); (Field None 377%N (Some "Junction"%string) []); (Field None 377%N (Some "Junction"%string) []); (Field None 377%N (Some "Junction"%string) [])] 7%N []); (Variant "X8"%string [(Field None 377%N (Some "Junction"%string) []); (Field None 377%N (Some "Junction"%string) []); (Field None 377%N (Some "Junction"%string) []); (Field None 377%N (Some "Junction"%string) []); (Field None 377%N (Some "Junction"%string) []); (Field None 377%N (Some "Junction"%string) []); (Field None 377%N (Some "Junction"%string) []); (Field None 377%N (Some "Junction"%string) [])] 8%N [])]) []).
Definition md_t377 : ty := (Ty ["xcm"%string; "v2"%string; "junction"%string; "Junction"%string] [] (TVariant [(Variant "Parachain"%string [(Field None 91%N (Some "u32"%string) [])] 0%N []); (Variant "AccountId32"%string [(Field (Some "network"%string) 378%N (Some "NetworkId"%string) []); (Field (Some "id"%string) 1%N (Some "[u8; 32]"%string) [])] 1%N []); (Variant "AccountIndex64"%string [(Field (Some "network"%string) 378%N (Some "NetworkId"%string) []); (Field (Some "index"%string) 10%N (Some "u64"%string) [])] 2%N []); (Variant "AccountKey20"%string [(Field (Some "network"%string) 378%N (Some "NetworkId"%string) []); (Field (Some "key"%string) 102%N (Some "[u8; 20]"%string) [])] 3%N []); (Variant "PalletInstance"%string [(Field None 2%N (Some "u8"%string) [])] 4%N []); (Variant "GeneralIndex"%string [(Field None 60%N (Some "u128"%string) [])] 5%N []); (Variant "GeneralKey"%string [(Field None 379%N (Some "WeakBoundedVec<u8, ConstU32<32>>"%string) [])] 6%N []); (Variant "OnlyChild"%string [] 7%N []); (Variant "Plurality"%string [(Field (Some "id"%string) 380%N (Some "BodyId"%string) []); (Field (Some "part"%string) 381%N (Some "BodyPart"%string) [])] 8%N [])]) []).
Definition md_t378 : ty := (Ty ["xcm"%string; "v2"%string; "NetworkId"%string] [] (TVariant [(Variant "Any"%string [] 0%N []); (Variant "Named"%string [(Field None 379%N (Some "WeakBoundedVec<u8, ConstU32<32>>"%string) [])] 1%N []); (Variant "Polkadot"%string [] 2%N []); (Variant "Kusama"%string [] 3%N [])]) []).
Definition md_t379 : ty := (Ty ["bounded_collections"%string; "weak_bounded_vec"%string; "WeakBoundedVec"%string] [("T"%string,(Some 2%N)); ("S"%string,None)] (TComposite [(Field None 13%N (Some "Vec<T>"%string) [])]) []).
Definition md_t380 : ty := (Ty ["xcm"%string; "v2"%string; "BodyId"%string] [] (TVariant [(Variant "Unit"%string [] 0%N []); (Variant "Named"%string [(Field None 379%N (Some "WeakBoundedVec<u8, ConstU32<32>>"%string) [])] 1%N []); (Variant "Index"%string [(Field None 91%N (Some "u32"%string) [])] 2%N []); (Variant "Executive"%string [] 3%N []); (Variant "Technical"%string [] 4%N []); (Variant "Legislative"%string [] 5%N []); (Variant "Judicial"%string [] 6%N []); (Variant "Defense"%string [] 7%N []); (Variant "Administration"%string [] 8%N []); (Variant "Treasury"%string [] 9%N [])]) []).
Definition md_t381 : ty := (Ty ["xcm"%string; "v2"%string; "BodyPart"%string] [] (TVariant [(Variant "Voice"%string [] 0%N []); (Variant "Members"%string [(Field (Some "count"%string) 91%N (Some "u32"%string) [])] 1%N []); (Variant "Fraction"%string [(Field (Some "nom"%string) 91%N (Some "u32"%string) []); (Field (Some "denom"%string) 91%N (Some "u32"%string) [])] 2%N []); (Variant "AtLeastProportion"%string [(Field (Some "nom"%string) 91%N (Some "u32"%string) []); (Field (Some "denom"%string) 91%N (Some "u32"%string) [])] 3%N []); (Variant "MoreThanProportion"%string [(Field (Some "nom"%string) 91%N (Some "u32"%string) []); (Field (Some "denom"%string) 91%N (Some "u32"%string) [])] 4%N [])]) []).
Definition md_t382 : ty := (Ty ["xcm"%string; "VersionedXcm"%string] [("RuntimeCall"%string,None)] (TVariant [(Variant "V2"%string [(Field None 383%N (Some "v2::Xcm<RuntimeCall>"%string) [])] 2%N []); (Variant "V3"%string [(Field None 402%N (Some "v3::Xcm<RuntimeCall>"%string) [])] 3%N [])]) []).
Definition md_t383 : ty := (Ty ["xcm"%string; "v2"%string; "Xcm"%string] [("RuntimeCall"%string,None)] (TComposite [(Field None 384%N (Some "Vec<Instruction<RuntimeCall>>"%string) [])]) []).
Definition md_t384 : ty := (Ty [] [] (TSequence 385%N) []).
Definition md_t385 : ty := (Ty ["xcm"%string; "v2"%string; "Instruction"%string] [("RuntimeCall"%string,None)] (TVariant [(Variant "WithdrawAsset"%string [(Field None 386%N (Some "MultiAssets"%string) [])] 0%N []); (Variant "ReserveAssetDeposited"%string [(Field None 386%N (Some "MultiAssets"%string) [])] 1%N []); (Variant "ReceiveTeleportedAsset"%string [(Field None 386%N (Some "MultiAssets"%string) [])] 2%N []); (Variant "QueryResponse"%string [(Field (Some "query_id"%string) 10%N (Some "QueryId"%string) []); (Field (Some "response"%string) 392%N (Some "Response"%string) []); (Field (Some "max_weight"%string) 10%N (Some "u64"%string) [])] 3%N []); (Variant "TransferAsset"%string [(Field (Some "assets"%string) 386%N (Some "MultiAssets"%string) []); (Field (Some "beneficiary"%string) 375%N (Some "MultiLocation"%string) [])] 4%N []); (Variant "TransferReserveAsset"%string [(Field (Some "assets"%string) 386%N (Some "MultiAssets"%string) []); (Field (Some "dest"%string) 375%N (Some "MultiLocation"%string) []); (Field (Some "xcm"%string) 383%N (Some "Xcm<()>"%string) [])] 5%N []); (Variant "Transact"%string [(Field (Some "origin_type"%string) 396%N (Some "OriginKind"%string) []); (Field (Some "require_weight_at_most"%string) 10%N (Some "u64"%string) []); (Field (Some "call"%string) 397%N (Some "DoubleEncoded<RuntimeCall>"%string) [])] 6%N []); (Variant "HrmpNewChannelOpenRequest"%string [(Field (Some "sender"%string) 91%N (Some "u32"%string) []); (Field (Some "max_message_size"%string) 91%N (Some "u32"%string) []); (Field (Some "max_capacity"%string) 91%N (Some "u32"%string) [])] 7%N []); (Variant "HrmpChannelAccepted"%string [(Field (Some "recipient"%string) 91%N (Some "u32"%string) [])] 8%N []); (Variant "HrmpChannelClosing"%string [(Field (Some "initiator"%string) 91%N (Some "u32"%string) []); (Field (Some "sender"%string) 91%N (Some "u32"%string) []); (Field (Some "recipient"%string) 91%N (Some "u32"%string) [])] 9%N []); (Variant "ClearOrigin"%string [] 10%N []); (Variant "DescendOrigin"%string [(Field None 376%N (Some "InteriorMultiLocation"%string) [])] 11%N []); (Variant "ReportError"%string [(Field (Some "query_id"%string) 10%N (Some "QueryId"%string) []); (Field (Some "dest"%string) 375%N (Some "MultiLocation"%string) []); (Field (Some "max_response_weight"%string) 10%N (Some "u64"%string) [])] 12%N []); (Variant "DepositAsset"%string [(Field (Some "assets"%string) 398%N (Some "MultiAssetFilter"%string) []); (Field (Some "max_assets"%string) 91%N (Some "u32"%string) []); (Field (Some "beneficiary"%string) 375%N (Some "MultiLocation"%string) [])] 13%N []); (Variant "DepositReserveAsset"%string [(Field (Some "assets"%string) 398%N (Some "MultiAssetFilter"%string) []); (Field (Some "max_assets"%string) 91%N (Some "u32"%string) []); (Field (Some "dest"%string) 375%N (Some "MultiLocation"%string) []); (Field (Some "xcm"%string) 383%N (Some "Xcm<()>"%string) [])] 14%N []); (Variant "ExchangeAsset"%string [(Field (Some "give"%string) 398%N (Some "MultiAssetFilter"%string) []); (Field (Some "receive"%string) 386%N (Some "MultiAssets"%string) [])] 15%N []); (Variant "InitiateReserveWithdraw"%string [(Field (Some "assets"%string) 398%N (Some "MultiAssetFilter"%string) []); (Field (Some "reserve"%string) 375%N (Some "MultiLocation"%string) []); (Field (Some "xcm"%string) 383%N (Some "Xcm<()>"%string) [])] 16%N []); (Variant "InitiateTeleport"%string [(Field (Some "assets"%string) 398%N (Some "MultiAssetFilter"%string) []); (Field (Some "dest"%string) 375%N (Some "MultiLocation"%string) []); (Field (Some "xcm"%string) 383%N (Some "Xcm<()>"%string) [])] 17%N []); (Variant "QueryHolding"%string [(Field (Some "query_id"%string) 10%N (Some "QueryId"%string) []); (Field (Some "dest"%string) 375%N (Some "MultiLocation"%string) []); (Field (Some "assets"%string) 398%N (Some "MultiAssetFilter"%string) []); (Field (Some "max_response_weight"%string) 10%N (Some "u64"%string) [])] 18%N []); (Variant "BuyExecution"%string [(Field (Some "fees"%string) 388%N (Some "MultiAsset"%string) []); (Field (Some "weight_limit"%string) 401%N (Some "WeightLimit"%string) [])] 19%N []); (Variant "RefundSurplus"%string [] 20%N []); (Variant "SetErrorHandler"%string [(Field None 383%N (Some "Xcm<RuntimeCall>"%string) [])] 21%N []); (Variant "SetAppendix"%string [(Field None 383%N (Some "Xcm<RuntimeCall>"%string) [])] 22%N []); (Variant "ClearError"%string [] 23%N []); (Variant "ClaimAsset"%string [(Field (Some "assets"%string) 386%N (Some "MultiAssets"%string) []); (Field (Some "ticket"%string) 375%N (Some "MultiLocation"%string) [])] 24%N []); (Variant "Trap"%string [(Field None 10%N (Some "u64"%string) [])] 25%N []); (Variant "SubscribeVersion"%string [(Field (Some "query_id"%string) 10%N (Some "QueryId"%string) []); (Field (Some "max_response_weight"%string) 10%N (Some "u64"%string) [])] 26%N []); (Variant "UnsubscribeVersion"%string [] 27%N [])]) []).
Definition md_t386 : ty := (Ty ["xcm"%string; "v2"%string; "multiasset"%string; "MultiAssets"%string] [] (TComposite [(Field None 387%N (Some "Vec<MultiAsset>"%string) [])]) []).
Definition md_t387 : ty := (Ty [] [] (TSequence 388%N) []).
Definition md_t388 : ty := (Ty ["xcm"%string; "v2"%string; "multiasset"%string; "MultiAsset"%string] [] (TComposite [(Field (Some "id"%string) 389%N (Some "AssetId"%string) []); (Field (Some "fun"%string) 390%N (Some "Fungibility"%string) [])]) []).
Definition md_t389 : ty := (Ty ["xcm"%string; "v2"%string; "multiasset"%string; "AssetId"%string] [] (TVariant [(Variant "Concrete"%string [(Field None 375%N (Some "MultiLocation"%string) [])] 0%N []); (Variant "Abstract"%string [(Field None 13%N (Some "Vec<u8>"%string) [])] 1%N [])]) []).
Definition md_t390 : ty := (Ty ["xcm"%string; "v2"%string; "multiasset"%string; "Fungibility"%string] [] (TVariant [(Variant "Fungible"%string [(Field None 60%N (Some "u128"%string) [])] 0%N []); (Variant "NonFungible"%string [(Field None 391%N (Some "AssetInstance"%string) [])] 1%N [])]) []).
Definition md_t391 : ty := (Ty ["xcm"%string; "v2"%string; "multiasset"%string; "AssetInstance"%string] [] (TVariant [(Variant "Undefined"%string [] 0%N []); (Variant "Index"%string [(Field None 60%N (Some "u128"%string) [])] 1%N []); (Variant "Array4"%string [(Field None 17%N (Some "[u8; 4]"%string) [])] 2%N []); (Variant "Array8"%string [(Field None 198%N (Some "[u8; 8]"%string) [])] 3%N []); (Variant "Array16"%string [(Field None 47%N (Some "[u8; 16]"%string) [])] 4%N []); (Variant "Array32"%string [(Field None 1%N (Some "[u8; 32]"%string) [])] 5%N []); (Variant "Blob"%string [(Field None 13%N (Some "Vec<u8>"%string) [])] 6%N [])]) []).
Definition md_t392 : ty := (Ty ["xcm"%string; "v2"%string; "Response"%string] [] (TVariant [(Variant "Null"%string [] 0%N []); (Variant "Assets"%string [(Field None 386%N (Some "MultiAssets"%string) [])] 1%N []); (Variant "ExecutionResult"%string [(Field None 393%N (Some "Option<(u32, Error)>"%string) [])] 2%N []); (Variant "Version"%string [(Field None 4%N (Some "super::Version"%string) [])] 3%N [])]) []).
Definition md_t393 : ty := (Ty ["Option"%string] [("T"%string,(Some 394%N))] (TVariant [(Variant "None"%string [] 0%N []); (Variant "Some"%string [(Field None 394%N None [])] 1%N [])]) []).
Definition md_t394 : ty := (Ty [] [] (TTuple [4%N; 395%N]) []).
Definition md_t395 : ty := (Ty ["xcm"%string; "v2"%string; "traits"%string; "Error"%string] [] (TVariant [(Variant "Overflow"%string [] 0%N []); (Variant "Unimplemented"%string [] 1%N []); (Variant "UntrustedReserveLocation"%string [] 2%N []); (Variant "UntrustedTeleportLocation"%string [] 3%N []); (Variant "MultiLocationFull"%string [] 4%N []); (Variant "MultiLocationNotInvertible"%string [] 5%N []); (Variant "BadOrigin"%string [] 6%N []); (Variant "InvalidLocation"%string [] 7%N []); (Variant "AssetNotFound"%string [] 8%N []); (Variant "FailedToTransactAsset"%string [] 9%N []); (Variant "NotWithdrawable"%string [] 10%N []); (Variant "LocationCannotHold"%string [] 11%N []); (Variant "ExceedsMaxMessageSize"%string [] 12%N []); (Variant "DestinationUnsupported"%string [] 13%N []); (Variant "Transport"%string [] 14%N []); (Variant "Unroutable"%string [] 15%N []); (Variant "UnknownClaim"%string [] 16%N []); (Variant "FailedToDecode"%string [] 17%N []); (Variant "MaxWeightInvalid"%string [] 18%N []); (Variant "NotHoldingFees"%string [] 19%N []); (Variant "TooExpensive"%string [] 20%N []); (Variant "Trap"%string [(Field None 11%N (Some "u64"%string) [])] 21%N []); (Variant "UnhandledXcmVersion"%string [] 22%N []); (Variant "WeightLimitReached"%string [(Field None 11%N (Some "Weight"%string) [])] 23%N []); (Variant "Barrier"%string [] 24%N []); (Variant "WeightNotComputable"%string [] 25%N [])]) []).
Definition md_t396 : ty := (Ty ["xcm"%string; "v2"%string; "OriginKind"%string] [] (TVariant [(Variant "Native"%string [] 0%N []); (Variant "SovereignAccount"%string [] 1%N []); (Variant "Superuser"%string [] 2%N []); (Variant "Xcm"%string [] 3%N [])]) []).
Definition md_t397 : ty := (Ty ["xcm"%string; "double_encoded"%string; "DoubleEncoded"%string] [("T"%string,None)] (TComposite [(Field (Some "encoded"%string) 13%N (Some "Vec<u8>"%string) [])]) []).
Definition md_t398 : ty := (Ty ["xcm"%string; "v2"%string; "multiasset"%string; "MultiAssetFilter"%string] [] (TVariant [(Variant "Definite"%string [(Field None 386%N (Some "MultiAssets"%string) [])] 0%N []); (Variant "Wild"%string [(Field None 399%N (Some "WildMultiAsset"%string) [])] 1%N [])]) []).
Definition md_t399 : ty := (Ty ["xcm"%string; "v2"%string; "multiasset"%string; "WildMultiAsset"%string] [] (TVariant [(Variant "All"%string [] 0%N []); (Variant "AllOf"%string [(Field (Some "id"%string) 389%N (Some "AssetId"%string) []); (Field (Some "fun"%string) 400%N (Some "WildFungibility"%string) [])] 1%N [])]) []).
Definition md_t400 : ty := (Ty ["xcm"%string; "v2"%string; "multiasset"%string; "WildFungibility"%string] [] (TVariant [(Variant "Fungible"%string [] 0%N []); (Variant "NonFungible"%string [] 1%N [])]) []).
Definition md_t401 : ty := (Ty ["xcm"%string; "v2"%string; "WeightLimit"%string] [] (TVariant [(Variant "Unlimited"%string [] 0%N []); (Variant "Limited"%string [(Field None 10%N (Some "u64"%string) [])] 1%N [])]) []).
Definition md_t402 : ty := (Ty ["xcm"%string; "v3"%string; "Xcm"%string] [("Call"%string,None)] (TComposite [(Field None 403%N (Some "Vec<Instruction<Call>>"%string) [])]) []).
Definition md_t403 : ty := (Ty [] [] (TSequence 404%N) []).
Definition md_t404 : ty := (Ty ["xcm"%string; "v3"%string; "Instruction"%string] [("Call"%string,None)] (TVariant [(Variant "WithdrawAsset"%string [(Field None 405%N (Some "MultiAssets"%string) [])] 0%N []); (Variant "ReserveAssetDeposited"%string [(Field None 405%N (Some "MultiAssets"%string) [])] 1%N []); (Variant "ReceiveTeleportedAsset"%string [(Field None 405%N (Some "MultiAssets"%string) [])] 2%N []); (Variant "QueryResponse"%string [(Field (Some "query_id"%string) 10%N (Some "QueryId"%string) []); (Field (Some "response"%string) 411%N (Some "Response"%string) []); (Field (Some "max_weight"%string) 9%N (Some "Weight"%string) []); (Field (Some "querier"%string) 421%N (Some "Option<MultiLocation>"%string) [])] 3%N []); (Variant "TransferAsset"%string [(Field (Some "assets"%string) 405%N (Some "MultiAssets"%string) []); (Field (Some "beneficiary"%string) 164%N (Some "MultiLocation"%string) [])] 4%N []); (Variant "TransferReserveAsset"%string [(Field (Some "assets"%string) 405%N (Some "MultiAssets"%string) []); (Field (Some "dest"%string) 164%N (Some "MultiLocation"%string) []); (Field (Some "xcm"%string) 402%N (Some "Xcm<()>"%string) [])] 5%N []); (Variant "Transact"%string [(Field (Some "origin_kind"%string) 396%N (Some "OriginKind"%string) []); (Field (Some "require_weight_at_most"%string) 9%N (Some "Weight"%string) []); (Field (Some "call"%string) 397%N (Some "DoubleEncoded<Call>"%string) [])] 6%N []); (Variant "HrmpNewChannelOpenRequest"%string [(Field (Some "sender"%string) 91%N (Some "u32"%string) []); (Field (Some "max_message_size"%string) 91%N (Some "u32"%string) []); (Field (Some "max_capacity"%string) 91%N (Some "u32"%string) [])] 7%N []); (Variant "HrmpChannelAccepted"%string [(Field (Some "recipient"%string) 91%N (Some "u32"%string) [])] 8%N []); (Variant "HrmpChannelClosing"%string [(Field (Some "initiator"%string) 91%N (Some "u32"%string) []); (Field (Some "sender"%string) 91%N (Some "u32"%string) []); (Field (Some "recipient"%string) 91%N (Some "u32"%string) [])] 9%N []); (Variant "ClearOrigin"%string [] 10%N []); (Variant "DescendOrigin"%string [(Field None 165%N (Some "InteriorMultiLocation"%string) [])] 11%N []); (Variant "ReportError"%string [(Field None 422%N (Some "QueryResponseInfo"%string) [])] 12%N []); (Variant "DepositAsset"%string [(Field (Some "assets"%string) 423%N (Some "MultiAssetFilter"%string) []); (Field (Some "beneficiary"%string) 164%N (Some "MultiLocation"%string) [])] 13%N []); (Variant "DepositReserveAsset"%string [(Field (Some "assets"%string) 423%N (Some "MultiAssetFilter"%string) []); (Field (Some "dest"%string) 164%N (Some "MultiLocation"%string) []); (Field (Some "xcm"%string) 402%N (Some "Xcm<()>"%string) [])] 14%N []); (Variant "ExchangeAsset"%string [(Field (Some "give"%string) 423%N (Some "MultiAssetFilter"%string) []); (Field (Some "want"%string) 405%N (Some "MultiAssets"%string) []); (Field (Some "maximal"%string) 44%N (Some "bool"%string) [])] 15%N []); (Variant "InitiateReserveWithdraw"%string [(Field (Some "assets"%string) 423%N (Some "MultiAssetFilter"%string) []); (Field (Some "reserve"%string) 164%N (Some "MultiLocation"%string) []); (Field (Some "xcm"%string) 402%N (Some "Xcm<()>"%string) [])] 16%N []); (Variant "InitiateTeleport"%string [(Field (Some "assets"%string) 423%N (Some "MultiAssetFilter"%string) []); (Field (Some "dest"%string) 164%N (Some "MultiLocation"%string) []); (Field (Some "xcm"%string) 402%N (Some "Xcm<()>"%string) [])] 17%N []); (Variant "ReportHolding"%string [(Field (Some "response_info"%string) 422%N (Some "QueryResponseInfo"%string) []); (Field (Some "assets"%string) 423%N (Some "MultiAssetFilter"%string) [])] 18%N []); (Variant "BuyExecution"%string [(Field (Some "fees"%string) 407%N (Some "MultiAsset"%string) []); (Field (Some "weight_limit"%string) 426%N (Some "WeightLimit"%string) [])] 19%N []); (Variant "RefundSurplus"%string [] 20%N []); (Variant "SetErrorHandler"%string [(Field None 402%N (Some "Xcm<Call>"%string) [])] 21%N []); (Variant "SetAppendix"%string [(Field None 402%N (Some "Xcm<Call>"%string) [])] 22%N []); (Variant "ClearError"%string [] 23%N []); (Variant "ClaimAsset"%string [(Field (Some "assets"%string) 405%N (Some "MultiAssets"%string) []); (Field (Some "ticket"%string) 164%N (Some "MultiLocation"%string) [])] 24%N []); (Variant "Trap"%string [(Field None 10%N (Some "u64"%string) [])] 25%N []); (Variant "SubscribeVersion"%string [(Field (Some "query_id"%string) 10%N (Some "QueryId"%string) []); (Field (Some "max_response_weight"%string) 9%N (Some "Weight"%string) [])] 26%N []); (Variant "UnsubscribeVersion"%string [] 27%N []); (Variant "BurnAsset"%string [(Field None 405%N (Some "MultiAssets"%string) [])] 28%N []); (Variant "ExpectAsset"%string [(Field None 405%N (Some "MultiAssets"%string) [])] 29%N []); (Variant "ExpectOrigin"%string [(Field None 421%N (Some "Option<MultiLocation>"%string) [])] 30%N []); (Variant "ExpectError"%string [(Field None 412%N (Some "Option<(u32, Error)>"%string) [])] 31%N []); (Variant "ExpectTransactStatus"%string [(Field None 419%N (Some "MaybeErrorCode"%string) [])] 32%N []); (Variant "QueryPallet"%string [(Field (Some "module_name"%string) 13%N (Some "Vec<u8>"%string) []); (Field (Some "response_info"%string) 422%N (Some "QueryResponseInfo"%string) [])] 33%N []); (Variant "ExpectPallet"%string [(Field (Some "index"%string) 91%N (Some "u32"%string) []); (Field (Some "name"%string) 13%N (Some "Vec<u8>"%string) []); (Field (Some "module_name"%string) 13%N (Some "Vec<u8>"%string) []); (Field (Some "crate_major"%string) 91%N (Some "u32"%string) []); (Field (Some "min_crate_minor"%string) 91%N (Some "u32"%string) [])] 34%N []); (Variant "ReportTransactStatus"%string [(Field None 422%N (Some "QueryResponseInfo"%string) [])] 35%N []); (Variant "ClearTransactStatus"%string [] 36%N []); (Variant "UniversalOrigin"%string [(Field None 166%N (Some "Junction"%string) [])] 37%N []); (Variant "ExportMessage"%string [(Field (Some "network"%string) 168%N (Some "NetworkId"%string) []); (Field (Some "destination"%string) 165%N (Some "InteriorMultiLocation"%string) []); (Field (Some "xcm"%string) 402%N (Some "Xcm<()>"%string) [])] 38%N []); (Variant "LockAsset"%string [(Field (Some "asset"%string) 407%N (Some "MultiAsset"%string) []); (Field (Some "unlocker"%string) 164%N (Some "MultiLocation"%string) [])] 39%N []); (Variant "UnlockAsset"%string [(Field (Some "asset"%string) 407%N (Some "MultiAsset"%string) []); (Field (Some "target"%string) 164%N (Some "MultiLocation"%string) [])] 40%N []); (Variant "NoteUnlockable"%string [(Field (Some "asset"%string) 407%N (Some "MultiAsset"%string) []); (Field (Some "owner"%string) 164%N (Some "MultiLocation"%string) [])] 41%N []); (Variant "RequestUnlock"%string [(Field (Some "asset"%string) 407%N (Some "MultiAsset"%string) []); (Field (Some "locker"%string) 164%N (Some "MultiLocation"%string) [])] 42%N []); (Variant "SetFeesMode"%string [(Field (Some "jit_withdraw"%string) 44%N (Some "bool"%string) [])] 43%N []); (Variant "SetTopic"%string [(Field None 1%N (Some "[u8; 32]"%string) [])] 44%N []); (Variant "ClearTopic"%string [] 45%N []); (Variant "AliasOrigin"%string [(Field None 164%N (Some "MultiLocation"%string) [])] 46%N []); (Variant "UnpaidExecution"%string [(Field (Some "weight_limit"%string) 426%N (Some "WeightLimit"%string) []); (Field (Some "check_origin"%string) 421%N (Some "Option<MultiLocation>"%string) [])] 47%N [])]) []).
Definition md_t405 : ty := (Ty ["xcm"%string; "v3"%string; "multiasset"%string; "MultiAssets"%string] [] (TComposite [(Field None 406%N (Some "Vec<MultiAsset>"%string) [])]) []).
Definition md_t406 : ty := (Ty [] [] (TSequence 407%N) []).
Definition md_t407 : ty := (Ty ["xcm"%string; "v3"%string; "multiasset"%string; "MultiAsset"%string] [] (TComposite [(Field (Some "id"%string) 408%N (Some "AssetId"%string) []); (Field (Some "fun"%string) 409%N (Some "Fungibility"%string) [])]) []).
Definition md_t408 : ty := (Ty ["xcm"%string; "v3"%string; "multiasset"%string; "AssetId"%string] [] (TVariant [(Variant "Concrete"%string [(Field None 164%N (Some "MultiLocation"%string) [])] 0%N []); (Variant "Abstract"%string [(Field None 1%N (Some "[u8; 32]"%string) [])] 1%N [])]) []).
Definition md_t409 : ty := (Ty ["xcm"%string; "v3"%string; "multiasset"%string; "Fungibility"%string] [] (TVariant [(Variant "Fungible"%string [(Field None 60%N (Some "u128"%string) [])] 0%N []); (Variant "NonFungible"%string [(Field None 410%N (Some "AssetInstance"%string) [])] 1%N [])]) []).
Definition md_t410 : ty := (Ty ["xcm"%string; "v3"%string; "multiasset"%string; "AssetInstance"%string] [] (TVariant [(Variant "Undefined"%string [] 0%N []); (Variant "Index"%string [(Field None 60%N (Some "u128"%string) [])] 1%N []); (Variant "Array4"%string [(Field None 17%N (Some "[u8; 4]"%string) [])] 2%N []); (Variant "Array8"%string [(Field None 198%N (Some "[u8; 8]"%string) [])] 3%N []); (Variant "Array16"%string [(Field None 47%N (Some "[u8; 16]"%string) [])] 4%N []); (Variant "Array32"%string [(Field None 1%N (Some "[u8; 32]"%string) [])] 5%N [])]) []).
Definition md_t411 : ty := (Ty ["xcm"%string; "v3"%string; "Response"%string] [] (TVariant [(Variant "Null"%string [] 0%N []); (Variant "Assets"%string [(Field None 405%N (Some "MultiAssets"%string) [])] 1%N []); (Variant "ExecutionResult"%string [(Field None 412%N (Some "Option<(u32, Error)>"%string) [])] 2%N []); (Variant "Version"%string [(Field None 4%N (Some "super::Version"%string) [])] 3%N []); (Variant "PalletsInfo"%string [(Field None 415%N (Some "BoundedVec<PalletInfo, MaxPalletsInfo>"%string) [])] 4%N []); (Variant "DispatchResult"%string [(Field None 419%N (Some "MaybeErrorCode"%string) [])] 5%N [])]) []).
Definition md_t412 : ty := (Ty ["Option"%string] [("T"%string,(Some 413%N))] (TVariant [(Variant "None"%string [] 0%N []); (Variant "Some"%string [(Field None 413%N None [])] 1%N [])]) []).
Definition md_t413 : ty := (Ty [] [] (TTuple [4%N; 414%N]) []).
Definition md_t414 : ty := (Ty ["xcm"%string; "v3"%string; "traits"%string; "Error"%string] [] (TVariant [(Variant "Overflow"%string [] 0%N []); (Variant "Unimplemented"%string [] 1%N []); (Variant "UntrustedReserveLocation"%string [] 2%N []); (Variant "UntrustedTeleportLocation"%string [] 3%N []); (Variant "LocationFull"%string [] 4%N []); (Variant "LocationNotInvertible"%string [] 5%N []); (Variant "BadOrigin"%string [] 6%N []); (Variant "InvalidLocation"%string [] 7%N []); (Variant "AssetNotFound"%string [] 8%N []); (Variant "FailedToTransactAsset"%string [] 9%N []); (Variant "NotWithdrawable"%string [] 10%N []); (Variant "LocationCannotHold"%string [] 11%N []); (Variant "ExceedsMaxMessageSize"%string [] 12%N []); (Variant "DestinationUnsupported"%string [] 13%N []); (Variant "Transport"%string [] 14%N []); (Variant "Unroutable"%string [] 15%N []); (Variant "UnknownClaim"%string [] 16%N []); (Variant "FailedToDecode"%string [] 17%N []); (Variant "MaxWeightInvalid"%string [] 18%N []); (Variant "NotHoldingFees"%string [] 19%N []); (Variant "TooExpensive"%string [] 20%N []); (Variant "Trap"%string [(Field None 11%N (Some "u64"%string) [])] 21%N []); (Variant "ExpectationFalse"%string [] 22%N []); (Variant "PalletNotFound"%string [] 23%N []); (Variant "NameMismatch"%string [] 24%N []); (Variant "VersionIncompatible"%string [] 25%N []); (Variant "HoldingWouldOverflow"%string [] 26%N []); (Variant "ExportError"%string [] 27%N []); (Variant "ReanchorFailed"%string [] 28%N []); (Variant "NoDeal"%string [] 29%N []); (Variant "FeesNotMet"%string [] 30%N []); (Variant "LockError"%string [] 31%N []); (Variant "NoPermission"%string [] 32%N []); (Variant "Unanchored"%string [] 33%N []); (Variant "NotDepositable"%string [] 34%N []); (Variant "UnhandledXcmVersion"%string [] 35%N []); (Variant "WeightLimitReached"%string [(Field None 9%N (Some "Weight"%string) [])] 36%N []); (Variant "Barrier"%string [] 37%N []); (Variant "WeightNotComputable"%string [] 38%N []); (Variant "ExceedsStackLimit"%string [] 39%N [])]) []).
Definition md_t415 : ty := (Ty ["bounded_collections"%string; "bounded_vec"%string; "BoundedVec"%string] [("T"%string,(Some 416%N)); ("S"%string,None)] (TComposite [(Field None 418%N (Some "Vec<T>"%string) [])]) []).
Definition md_t416 : ty := (Ty ["xcm"%string; "v3"%string; "PalletInfo"%string] [] (TComposite [(Field (Some "index"%string) 91%N (Some "u32"%string) []); (Field (Some "name"%string) 417%N (Some "BoundedVec<u8, MaxPalletNameLen>"%string) []); (Field (Some "module_name"%string) 417%N (Some "BoundedVec<u8, MaxPalletNameLen>"%string) []); (Field (Some "major"%string) 91%N (Some "u32"%string) []); (Field (Some "minor"%string) 91%N (Some "u32"%string) []); (Field (Some "patch"%string) 91%N (Some "u32"%string) [])]) []).
Definition md_t417 : ty := (Ty ["bounded_collections"%string; "bounded_vec"%string; "BoundedVec"%string] [("T"%string,(Some 2%N)); ("S"%string,None)] (TComposite [(Field None 13%N (Some "Vec<T>"%string) [])]) []).
Definition md_t418 : ty := (Ty [] [] (TSequence 416%N) []).
Definition md_t419 : ty := (Ty ["xcm"%string; "v3"%string; "MaybeErrorCode"%string] [] (TVariant [(Variant "Success"%string [] 0%N []); (Variant "Error"%string [(Field None 420%N (Some "BoundedVec<u8, MaxDispatchErrorLen>"%string) [])] 1%N []); (Variant "TruncatedError"%string [(Field None 420%N (Some "BoundedVec<u8, MaxDispatchErrorLen>"%string) [])] 2%N [])]) []).
Definition md_t420 : ty := (Ty ["bounded_collections"%string; "bounded_vec"%string; "BoundedVec"%string] [("T"%string,(Some 2%N)); ("S"%string,None)] (TComposite [(Field None 13%N (Some "Vec<T>"%string) [])]) []).
Definition md_t421 : ty := (Ty ["Option"%string] [("T"%string,(Some 164%N))] (TVariant [(Variant "None"%string [] 0%N []); (Variant "Some"%string [(Field None 164%N None [])] 1%N [])]) []).
Definition md_t422 : ty := (Ty ["xcm"%string; "v3"%string; "QueryResponseInfo"%string] [] (TComposite [(Field (Some "destination"%string) 164%N (Some "MultiLocation"%string) []); (Field (Some "query_id"%string) 10%N (Some "QueryId"%string) []); (Field (Some "max_weight"%string) 9%N (Some "Weight"%string) [])]) []).
Definition md_t423 : ty := (Ty ["xcm"%string; "v3"%string; "multiasset"%string; "MultiAssetFilter"%string] [] (TVariant [(Variant "Definite"%string [(Field None 405%N (Some "MultiAssets"%string) [])] 0%N []); (Variant "Wild"%string [(Field None 424%N (Some "WildMultiAsset"%string) [])] 1%N [])]) []).
Definition md_t424 : ty := (Ty ["xcm"%string; "v3"%string; "multiasset"%string; "WildMultiAsset"%string] [] (TVariant [(Variant "All"%string [] 0%N []); (Variant "AllOf"%string [(Field (Some "id"%string) 408%N (Some "AssetId"%string) []); (Field (Some "fun"%string) 425%N (Some "WildFungibility"%string) [])] 1%N []); (Variant "AllCounted"%string [(Field None 91%N (Some "u32"%string) [])] 2%N []); (Variant "AllOfCounted"%string [(Field (Some "id"%string) 408%N (Some "AssetId"%string) []); (Field (Some "fun"%string) 425%N (Some "WildFungibility"%string) []); (Field (Some "count"%string) 91%N (Some "u32"%string) [])] 3%N [])]) []).
Definition md_t425 : ty := (Ty ["xcm"%string; "v3"%string; "multiasset"%string; "WildFungibility"%string] [] (TVariant [(Variant "Fungible"%string [] 0%N []); (Variant "NonFungible"%string [] 1%N [])]) []).
Definition md_t426 : ty := (Ty ["xcm"%string; "v3"%string; "WeightLimit"%string] [] (TVariant [(Variant "Unlimited"%string [] 0%N []); (Variant "Limited"%string [(Field None 9%N (Some "Weight"%string) [])] 1%N [])]) []).
Definition md_t427 : ty := (Ty ["xcm"%string; "VersionedMultiAssets"%string] [] (TVariant [(Variant "V2"%string [(Field None 386%N (Some "v2::MultiAssets"%string) [])] 1%N []); (Variant "V3"%string [(Field None 405%N (Some "v3::MultiAssets"%string) [])] 3%N [])]) []).
Definition md_t428 : ty := (Ty ["xcm"%string; "VersionedXcm"%string] [("RuntimeCall"%string,None)] (TVariant [(Variant "V2"%string [(Field None 429%N (Some "v2::Xcm<RuntimeCall>"%string) [])] 2%N []); (Variant "V3"%string [(Field None 433%N (Some "v3::Xcm<RuntimeCall>"%string) [])] 3%N [])]) []).
Definition md_t429 : ty := (Ty ["xcm"%string; "v2"%string; "Xcm"%string] [("RuntimeCall"%string,None)] (TComposite [(Field None 430%N (Some "Vec<Instruction<RuntimeCall>>"%string) [])]) []).
Definition md_t430 : ty := (Ty [] [] (TSequence 431%N) []).
Definition md_t431 : ty := (Ty ["xcm"%string; "v2"%string; "Instruction"%string] [("RuntimeCall"%string,None)] (TVariant [(Variant "WithdrawAsset"%string [(Field None 386%N (Some "MultiAssets"%string) [])] 0%N []); (Variant "ReserveAssetDeposited"%string [(Field None 386%N (Some "MultiAssets"%string) [])] 1%N []); (Variant "ReceiveTeleportedAsset"%string [(Field None 386%N (Some "MultiAssets"%string) [])] 2%N []); (Variant "QueryResponse"%string [(Field (Some "query_id"%string) 10%N (Some "QueryId"%string) []); (Field (Some "response"%string) 392%N (Some "Response"%string) []); (Field (Some "max_weight"%string) 10%N (Some "u64"%string) [])] 3%N []); (Variant "TransferAsset"%string [(Field (Some "assets"%string) 386%N (Some "MultiAssets"%string) []); (Field (Some "beneficiary"%string) 375%N (Some "MultiLocation"%string) [])] 4%N []); (Variant "TransferReserveAsset"%string [(Field (Some "assets"%string) 386%N (Some "MultiAssets"%string) []); (Field (Some "dest"%string) 375%N (Some "MultiLocation"%string) []); (Field (Some "xcm"%string) 383%N (Some "Xcm<()>"%string) [])] 5%N []); (Variant "Transact"%string [(Field (Some "origin_type"%string) 396%N (Some "OriginKind"%string) []); (Field (Some "require_weight_at_most"%string) 10%N (Some "u64"%string) []); (Field (Some "call"%string) 432%N (Some "DoubleEncoded<RuntimeCall>"%string) [])] 6%N []); (Variant "HrmpNewChannelOpenRequest"%string [(Field (Some "sender"%string) 91%N (Some "u32"%string) []); (Field (Some "max_message_size"%string) 91%N (Some "u32"%string) []); (Field (Some "max_capacity"%string) 91%N (Some "u32"%string) [])] 7%N []); (Variant "HrmpChannelAccepted"%string [(Field (Some "recipient"%string) 91%N (Some "u32"%string) [])] 8%N []); (Variant "HrmpChannelClosing"%string [(Field (Some "initiator"%string) 91%N (Some "u32"%string) []); (Field (Some "sender"%string) 91%N (Some "u32"%string) []); (Field (Some "recipient"%string) 91%N (Some "u32"%string) [])] 9%N []); (Variant "ClearOrigin"%string [] 10%N []); (Variant "DescendOrigin"%string [(Field None 376%N (Some "InteriorMultiLocation"%string) [])] 11%N []); (Variant "ReportError"%string [(Field (Some "query_id"%string) 10%N (Some "QueryId"%string) []); (Field (Some "dest"%string) 375%N (Some "MultiLocation"%string) []); (Field (Some "max_response_weight"%string) 10%N (Some "u64"%string) [])] 12%N []); (Variant "DepositAsset"%string [(Field (Some "assets"%string) 398%N (Some "MultiAssetFilter"%string) []); (Field (Some "max_assets"%string) 91%N (Some "u32"%string) []); (Field (Some "beneficiary"%string) 375%N (Some "MultiLocation"%string) [])] 13%N []); (Variant "DepositReserveAsset"%string [(Field (Some "assets"%string) 398%N (Some "MultiAssetFilter"%string) []); (Field (Some "max_assets"%string) 91%N (Some "u32"%string) []); (Field (Some "dest"%string) 375%N (Some "MultiLocation"%string) []); (Field (Some "xcm"%string) 383%N (Some "Xcm<()>"%string) [])] 14%N []); (Variant "ExchangeAsset"%string [(Field (Some "give"%string) 398%N (Some "MultiAssetFilter"%string) []); (Field (Some "receive"%string) 386%N (Some "MultiAssets"%string) [])] 15%N []); (Variant "InitiateReserveWithdraw"%string [(Field (Some "assets"%string) 398%N (Some "MultiAssetFilter"%string) []); (Field (Some "reserve"%string) 375%N (Some "MultiLocation"%string) []); (Field (Some "xcm"%string) 383%N (Some "Xcm<()>"%string) [])] 16%N []); (Variant "InitiateTeleport"%string [(Field (Some "assets"%string) 398%N (Some "MultiAssetFilter"%string) []); (Field (Some "dest"%string) 375%N (Some "MultiLocation"%string) []); (Field (Some "xcm"%string) 383%N (Some "Xcm<()>"%string) [])] 17%N []); (Variant "QueryHolding"%string [(Field (Some "query_id"%string) 10%N (Some "QueryId"%string) []); (Field (Some "dest"%string) 375%N (Some "MultiLocation"%string) []); (Field (Some "assets"%string) 398%N (Some "MultiAssetFilter"%string) []); (Field (Some "max_response_weight"%string) 10%N (Some "u64"%string) [])] 18%N []); (Variant "BuyExecution"%string [(Field (Some "fees"%string) 388%N (Some "MultiAsset"%string) []); (Field (Some "weight_limit"%string) 401%N (Some "WeightLimit"%string) [])] 19%N []); (Variant "RefundSurplus"%string [] 20%N []); (Variant "SetErrorHandler"%string [(Field None 429%N (Some "Xcm<RuntimeCall>"%string) [])] 21%N []); (Variant "SetAppendix"%string [(Field None 429%N (Some "Xcm<RuntimeCall>"%string) [])] 22%N []); (Variant "ClearError"%string [] 23%N []); (Variant "ClaimAsset"%string [(Field (Some "assets"%string) 386%N (Some "MultiAssets"%string) []); (Field (Some "ticket"%string) 375%N (Some "MultiLocation"%string) [])] 24%N []); (Variant "Trap"%string [(Field None 10%N (Some "u64"%string) [])] 25%N []); (Variant "SubscribeVersion"%string [(Field (Some "query_id"%string) 10%N (Some "QueryId"%string) []); (Field (Some "max_response_weight"%string) 10%N (Some "u64"%string) [])] 26%N []); (Variant "UnsubscribeVersion"%string [] 27%N [])]) []).
Definition md_t432 : ty := (Ty ["xcm"%string; "double_encoded"%string; "DoubleEncoded"%string] [("T"%string,None)] (TComposite [(Field (Some "encoded"%string) 13%N (Some "Vec<u8>"%string) [])]) []).
Definition md_t433 : ty := (Ty ["xcm"%string; "v3"%string; "Xcm"%string] [("Call"%string,None)] (TComposite [(Field None 434%N (Some "Vec<Instruction<Call>>"%string) [])]) []).
Definition md_t434 : ty := (Ty [] [] (TSequence 435%N) []).
Definition md_t435 : ty := (Ty ["xcm"%string; "v3"%string; "Instruction"%string] [("Call"%string,None)] (TVariant [(Variant "WithdrawAsset"%string [(Field None 405%N (Some "MultiAssets"%string) [])] 0%N []); (Variant "ReserveAssetDeposited"%string [(Field None 405%N (Some "MultiAssets"%string) [])] 1%N []); (Variant "ReceiveTeleportedAsset"%string [(Field None 405%N (Some "MultiAssets"%string) [])] 2%N []); (Variant "QueryResponse"%string [(Field (Some "query_id"%string) 10%N (Some "QueryId"%string) []); (Field (Some "response"%string) 411%N (Some "Response"%string) []); (Field (Some "max_weight"%string) 9%N (Some "Weight"%string) []); (Field (Some "querier"%string) 421%N (Some "Option<MultiLocation>"%string) [])] 3%N []); (Variant "TransferAsset"%string [(Field (Some "assets"%string) 405%N (Some "MultiAssets"%string) []); (Field (Some "beneficiary"%string) 164%N (Some "MultiLocation"%string) [])] 4%N []); (Variant "TransferReserveAsset"%string [(Field (Some "assets"%string) 405%N (Some "MultiAssets"%string) []); (Field (Some "dest"%string) 164%N (Some "MultiLocation"%string) []); (Field (Some "xcm"%string) 402%N (Some "Xcm<()>"%string) [])] 5%N []); (Variant "Transact"%string [(Field (Some "origin_kind"%string) 396%N (Some "OriginKind"%string) []); (Field (Some "require_weight_at_most"%string) 9%N (Some "Weight"%string) []); (Field (Some "call"%string) 432%N (Some "DoubleEncoded<Call>"%string) [])] 6%N []); (Variant "HrmpNewChannelOpenRequest"%string [(Field (Some "sender"%string) 91%N (Some "u32"%string) []); (Field (Some "max_message_size"%string) 91%N (Some "u32"%string) []); (Field (Some "max_capacity"%string) 91%N (Some "u32"%string) [])] 7%N []); (Variant "HrmpChannelAccepted"%string [(Field (Some "recipient"%string) 91%N (Some "u32"%string) [])] 8%N []); (Variant "HrmpChannelClosing"%string [(Field (Some "initiator"%string) 91%N (Some "u32"%string) []); (Field (Some "sender"%string) 91%N (Some "u32"%string) []); (Field (Some "recipient"%string) 91%N (Some "u32"%string) [])] 9%N []); (Variant "ClearOrigin"%string [] 10%N []); (Variant "DescendOrigin"%string [(Field None 165%N (Some "InteriorMultiLocation"%string) [])] 11%N []); (Variant "ReportError"%string [(Field None 422%N (Some "QueryResponseInfo"%string) [])] 12%N []); (Variant "DepositAsset"%string [(Field (Some "assets"%string) 423%N (Some "MultiAssetFilter"%string) []); (Field (Some "beneficiary"%string) 164%N (Some "MultiLocation"%string) [])] 13%N []); (Variant "DepositReserveAsset"%string [(Field (Some "assets"%string) 423%N (Some "MultiAssetFilter"%string) []); (Field (Some "dest"%string) 164%N (Some "MultiLocation"%string) []); (Field (Some "xcm"%string) 402%N (Some "Xcm<()>"%string) [])] 14%N []); (Variant "ExchangeAsset"%string [(Field (Some "give"%string) 423%N (Some "MultiAssetFilter"%string) []); (Field (Some "want"%string) 405%N (Some "MultiAssets"%string) []); (Field (Some "maximal"%string) 44%N (Some "bool"%string) [])] 15%N []); (Variant "InitiateReserveWithdraw"%string [(Field (Some "assets"%string) 423%N (Some "MultiAssetFilter"%string) []); (Field (Some "reserve"%string) 164%N (Some "MultiLocation"%string) []); (Field (Some "xcm"%string) 402%N (Some "Xcm<()>"%string) [])] 16%N []); (Variant "InitiateTeleport"%string [(Field (Some "assets"%string) 423%N (Some "MultiAssetFilter"%string) []); (Field (Some "dest"%string) 164%N (Some "MultiLocation"%string) []); (Field (Some "xcm"%string) 402%N (Some "Xcm<()>"%string) [])] 17%N []); (Variant "ReportHolding"%string [(Field (Some "response_info"%string) 422%N (Some "QueryResponseInfo"%string) []); (Field (Some "assets"%string) 423%N (Some "MultiAssetFilter"%string) [])] 18%N []); (Variant "BuyExecution"%string [(Field (Some "fees"%string) 407%N (Some "MultiAsset"%string) []); (Field (Some "weight_limit"%string) 426%N (Some "WeightLimit"%string) [])] 19%N []); (Variant "RefundSurplus"%string [] 20%N []); (Variant "SetErrorHandler"%string [(Field None 433%N (Some "Xcm<Call>"%string) [])] 21%N []); (Variant "SetAppendix"%string [(Field None 433%N (Some "Xcm<Call>"%string) [])] 22%N []); (Variant "ClearError"%string [] 23%N []); (Variant "ClaimAsset"%string [(Field (Some "assets"%string) 405%N (Some "MultiAssets"%string) []); (Field (Some "ticket"%string) 164%N (Some "MultiLocation"%string) [])] 24%N []); (Variant "Trap"%string [(Field None 10%N (Some "u64"%string) [])] 25%N []); (Variant "SubscribeVersion"%string [(Field (Some "query_id"%string) 10%N (Some "QueryId"%string) []); (Field (Some "max_response_weight"%string) 9%N (Some "Weight"%string) [])] 26%N []); (Variant "UnsubscribeVersion"%string [] 27%N []); (Variant "BurnAsset"%string [(Field None 405%N (Some "MultiAssets"%string) [])] 28%N []); (Variant "ExpectAsset"%string [(Field None 405%N (Some "MultiAssets"%string) [])] 29%N []); (Variant "ExpectOrigin"%string [(Field None 421%N (Some "Option<MultiLocation>"%string) [])] 30%N []); (Variant "ExpectError"%string [(Field None 412%N (Some "Option<(u32, Error)>"%string) [])] 31%N []); (Variant "ExpectTransactStatus"%string [(Field None 419%N (Some "MaybeErrorCode"%string) [])] 32%N []); (Variant "QueryPallet"%string [(Field (Some "module_name"%string) 13%N (Some "Vec<u8>"%string) []); (Field (Some "response_info"%string) 422%N (Some "QueryResponseInfo"%string) [])] 33%N []); (Variant "ExpectPallet"%string [(Field (Some "index"%string) 91%N (Some "u32"%string) []); (Field (Some "name"%string) 13%N (Some "Vec<u8>"%string) []); (Field (Some "module_name"%string) 13%N (Some "Vec<u8>"%string) []); (Field (Some "crate_major"%string) 91%N (Some "u32"%string) []); (Field (Some "min_crate_minor"%string) 91%N (Some "u32"%string) [])] 34%N []); (Variant "ReportTransactStatus"%string [(Field None 422%N (Some "QueryResponseInfo"%string) [])] 35%N []); (Variant "ClearTransactStatus"%string [] 36%N []); (Variant "UniversalOrigin"%string [(Field None 166%N (Some "Junction"%string) [])] 37%N []); (Variant "ExportMessage"%string [(Field (Some "network"%string) 168%N (Some "NetworkId"%string) []); (Field (Some "destination"%string) 165%N (Some "InteriorMultiLocation"%string) []); (Field (Some "xcm"%string) 402%N (Some "Xcm<()>"%string) [])] 38%N []); (Variant "LockAsset"%string [(Field (Some "asset"%string) 407%N (Some "MultiAsset"%string) []); (Field (Some "unlocker"%string) 164%N (Some "MultiLocation"%string) [])] 39%N []); (Variant "UnlockAsset"%string [(Field (Some "asset"%string) 407%N (Some "MultiAsset"%string) []); (Field (Some "target"%string) 164%N (Some "MultiLocation"%string) [])] 40%N []); (Variant "NoteUnlockable"%string [(Field (Some "asset"%string) 407%N (Some "MultiAsset"%string) []); (Field (Some "owner"%string) 164%N (Some "MultiLocation"%string) [])] 41%N []); (Variant "RequestUnlock"%string [(Field (Some "asset"%string) 407%N (Some "MultiAsset"%string) []); (Field (Some "locker"%string) 164%N (Some "MultiLocation"%string) [])] 42%N []); (Variant "SetFeesMode"%string [(Field (Some "jit_withdraw"%string) 44%N (Some "bool"%string) [])] 43%N []); (Variant "SetTopic"%string [(Field None 1%N (Some "[u8; 32]"%string) [])] 44%N []); (Variant "ClearTopic"%string [] 45%N []); (Variant "AliasOrigin"%string [(Field None 164%N (Some "MultiLocation"%string) [])] 46%N []); (Variant "UnpaidExecution"%string [(Field (Some "weight_limit"%string) 426%N (Some "WeightLimit"%string) []); (Field (Some "check_origin"%string) 421%N (Some "Option<MultiLocation>"%string) [])] 47%N [])]) []).
Definition md_t436 : ty := (Ty ["pallet_message_queue"%string; "pallet"%string; "Call"%string] [("T"%string,None)] (TVariant [(Variant "reap_page"%string [(Field (Some "message_origin"%string) 437%N (Some "MessageOriginOf<T>"%string) []); (Field (Some "page_index"%string) 4%N (Some "PageIndex"%string) [])] 0%N ["Remove a page which has no more messages remaining to be processed or is stale."%string]); (Variant "execute_overweight"%string [(Field (Some "message_origin"%string) 437%N (Some "MessageOriginOf<T>"%string) []); (Field (Some "page"%string) 4%N (Some "PageIndex"%string) []); (Field (Some "index"%string) 4%N (Some "T::Size"%string) []); (Field (Some "weight_limit"%string) 9%N (Some "Weight"%string) [])] 1%N ["Execute an overweight message."%string; ""%string; "Temporary processing errors will be propagated whereas permanent errors are treated"%string; "as success condition."%string; ""%string; "- `origin`: Must be `Signed`."%string; "- `message_origin`: The origin from which the message to be executed arrived."%string; "- `page`: The page in the queue in which the message to be executed is sitting."%string; "- `index`: The index into the queue of the message to be executed."%string; "- `weight_limit`: The maximum amount of weight allowed to be consumed in the execution"%string; "  of the message."%string; ""%string; "Benchmark complexity considerations: O(index + weight_limit)."%string])]) ["Contains one variant per dispatchable that can be called by an extrinsic."%string]).
Definition md_t437 : ty := (Ty ["polkadot_runtime_parachains"%string; "inclusion"%string; "AggregateMessageOrigin"%string] [] (TVariant [(Variant "Ump"%string [(Field None 438%N (Some "UmpQueueId"%string) [])] 0%N [])]) []).
Definition md_t438 : ty := (Ty ["polkadot_runtime_parachains"%string; "inclusion"%string; "UmpQueueId"%string] [] (TVariant [(Variant "Para"%string [(Field None 162%N (Some "ParaId"%string) [])] 0%N [])]) []).
Definition md_t439 : ty := (Ty ["bounded_collections"%string; "bounded_vec"%string; "BoundedVec"%string] [("T"%string,(Some 2%N)); ("S"%string,None)] (TComposite [(Field None 13%N (Some "Vec<T>"%string) [])]) []).
Definition md_t440 : ty := (Ty ["pallet_conviction_voting"%string; "types"%string; "Tally"%string] [("Votes"%string,(Some 6%N)); ("Total"%string,None)] (TComposite [(Field (Some "ayes"%string) 6%N (Some "Votes"%string) []); (Field (Some "nays"%string) 6%N (Some "Votes"%string) []); (Field (Some "support"%string) 6%N (Some "Votes"%string) [])]) []).
Definition md_t441 : ty := (Ty ["pallet_whitelist"%string; "pallet"%string; "Event"%string] [("T"%string,None)] (TVariant [(Variant "CallWhitelisted"%string [(Field (Some "call_hash"%string) 12%N (Some "PreimageHash"%string) [])] 0%N []); (Variant "WhitelistedCallRemoved"%string [(Field (Some "call_hash"%string) 12%N (Some "PreimageHash"%string) [])] 1%N []); (Variant "WhitelistedCallDispatched"%string [(Field (Some "call_hash"%string) 12%N (Some "PreimageHash"%string) []); (Field (Some "result"%string) 442%N (Some "DispatchResultWithPostInfo"%string) [])] 2%N [])]) ["
			The [event](https://docs.substrate.io/main-docs/build/events-errors/) emitted
			by this pallet.
			"%string]).
Definition md_t442 : ty := (Ty ["Result"%string] [("T"%string,(Some 443%N)); ("E"%string,(Some 445%N))] (TVariant [(Variant "Ok"%string [(Field None 443%N None [])] 0%N []); (Variant "Err"%string [(Field None 445%N None [])] 1%N [])]) []).
Definition md_t443 : ty := (Ty ["frame_support"%string; "dispatch"%string; "PostDispatchInfo"%string] [] (TComposite [(Field (Some "actual_weight"%string) 444%N (Some "Option<Weight>"%string) []); (Field (Some "pays_fee"%string) 24%N (Some "Pays"%string) [])]) []).
Definition md_t444 : ty := (Ty ["Option"%string] [("T"%string,(Some 9%N))] (TVariant [(Variant "None"%string [] 0%N []); (Variant "Some"%string [(Field None 9%N None [])] 1%N [])]) []).
Definition md_t445 : ty := (Ty ["sp_runtime"%string; "DispatchErrorWithPostInfo"%string] [("Info"%string,(Some 443%N))] (TComposite [(Field (Some "post_info"%string) 443%N (Some "Info"%string) []); (Field (Some "error"%string) 25%N (Some "DispatchError"%string) [])]) []).
Definition md_t446 : ty := (Ty ["polkadot_runtime_common"%string; "claims"%string; "pallet"%string; "Event"%string] [("T"%string,None)] (TVariant [(Variant "Claimed"%string [(Field (Some "who"%string) 0%N (Some "T::AccountId"%string) []); (Field (Some "ethereum_address"%string) 177%N (Some "EthereumAddress"%string) []); (Field (Some "amount"%string) 6%N (Some "BalanceOf<T>"%string) [])] 0%N ["Someone claimed some DOTs."%string])]) ["
			The [event](https://docs.substrate.io/main-docs/build/events-errors/) emitted
			by this pallet.
			"%string]).
Definition md_t447 : ty := (Ty ["pallet_vesting"%string; "pallet"%string; "Event"%string] [("T"%string,None)] (TVariant [(Variant "VestingUpdated"%string [(Field (Some "account"%string) 0%N (Some "T::AccountId"%string) []); (Field (Some "unvested"%string) 6%N (Some "BalanceOf<T>"%string) [])] 0%N ["The amount vested has been updated. This could indicate a change in funds available."%string; "The balance given is the amount which is left unvested (and thus locked)."%string]); (Variant "VestingCompleted"%string [(Field (Some "account"%string) 0%N (Some "T::AccountId"%string) [])] 1%N ["An \[account\] has become fully vested."%string])]) ["
			The [event](https://docs.substrate.io/main-docs/build/events-errors/) emitted
			by this pallet.
			"%string]).
Definition md_t448 : ty := (Ty ["pallet_utility"%string; "pallet"%string; "Event"%string] [] (TVariant [(Variant "BatchInterrupted"%string [(Field (Some "index"%string) 4%N (Some "u32"%string) []); (Field (Some "error"%string) 25%N (Some "DispatchError"%string) [])] 0%N ["Batch of dispatches did not complete fully. Index of first failing dispatch given, as"%string; "well as the error."%string]); (Variant "BatchCompleted"%string [] 1%N ["Batch of dispatches completed fully with no error."%string]); (Variant "BatchCompletedWithErrors"%string [] 2%N ["Batch of dispatches completed but has errors."%string]); (Variant "ItemCompleted"%string [] 3%N ["A single item within a Batch of dispatches has completed with no error."%string]); (Variant "ItemFailed"%string [(Field (Some "error"%string) 25%N (Some "DispatchError"%string) [])] 4%N ["A single item within a Batch of dispatches has completed with error."%string]); (Variant "DispatchedAs"%string [(Field (Some "result"%string) 33%N (Some "DispatchResult"%string) [])] 5%N ["A call was dispatched."%string])]) ["
			The [event](https://docs.substrate.io/main-docs/build/events-errors/) emitted
			by this pallet.
			"%string]).
Definition md_t449 : ty := (Ty ["pallet_identity"%string; "pallet"%string; "Event"%string] [("T"%string,None)] (TVariant [(Variant "IdentitySet"%string [(Field (Some "who"%string) 0%N (Some "T::AccountId"%string) [])] 0%N ["A name was set or reset (which will remove all judgements)."%string]); (Variant "IdentityCleared"%string [(Field (Some "who"%string) 0%N (Some "T::AccountId"%string) []); (Field (Some "deposit"%string) 6%N (Some "BalanceOf<T>"%string) [])] 1%N ["A name was cleared, and the given balance returned."%string]); (Variant "IdentityKilled"%string [(Field (Some "who"%string) 0%N (Some "T::AccountId"%string) []); (Field (Some "deposit"%string) 6%N (Some "BalanceOf<T>"%string) [])] 2%N ["A name was removed and the given balance slashed."%string]); (Variant "JudgementRequested"%string [(Field (Some "who"%string) 0%N (Some "T::AccountId"%string) []); (Field (Some "registrar_index"%string) 4%N (Some "RegistrarIndex"%string) [])] 3%N ["A judgement was asked from a registrar."%string]); (Variant "JudgementUnrequested"%string [(Field (Some "who"%string) 0%N (Some "T::AccountId"%string) []); (Field (Some "registrar_index"%string) 4%N (Some "RegistrarIndex"%string) [])] 4%N ["A judgement request was retracted."%string]); (Variant "JudgementGiven"%string [(Field (Some "target"%string) 0%N (Some "T::AccountId"%string) []); (Field (Some "registrar_index"%string) 4%N (Some "RegistrarIndex"%string) [])] 5%N ["A judgement was given by a registrar."%string]); (Variant "RegistrarAdded"%string [(Field (Some "registrar_index"%string) 4%N (Some "RegistrarIndex"%string) [])] 6%N ["A registrar was added."%string]); (Variant "SubIdentityAdded"%string [(Field (Some "sub"%string) 0%N (Some "T::AccountId"%string) []); (Field (Some "main"%string) 0%N (Some "T::AccountId"%string) []); (Field (Some "deposit"%string) 6%N (Some "BalanceOf<T>"%string) [])] 7%N ["A sub-identity was added to an identity and the deposit paid."%string]); (Variant "SubIdentityRemoved"%string [(Field (Some "sub"%string) 0%N (Some "T::AccountId"%string) []); (Field (Some "main"%string) 0%N (Some "T::AccountId"%string) []); (Field (Some "deposit"%string) 6%N (Some "BalanceOf<T>"%string) [])] 8%N ["A sub-identity was removed from an identity and the deposit freed."%string]); (Variant "SubIdentityRevoked"%string [(Field (Some "sub"%string) 0%N (Some "T::AccountId"%string) []); (Field (Some "main"%string) 0%N (Some "T::AccountId"%string) []); (Field (Some "deposit"%string) 6%N (Some "BalanceOf<T>"%string) [])] 9%N ["A sub-identity was cleared, and the given deposit repatriated from the"%string; "main identity account to the sub-identity account."%string])]) ["
			The [event](https://docs.substrate.io/main-docs/build/events-errors/) emitted
			by this pallet.
			"%string]).
Definition md_t450 : ty := (Ty ["pallet_proxy"%string; "pallet"%string; "Event"%string] [("T"%string,None)] (TVariant [(Variant "ProxyExecuted"%string [(Field (Some "result"%string) 33%N (Some "DispatchResult"%string) [])] 0%N ["A proxy was executed correctly, with the given."%string]); (Variant "PureCreated"%string [(Field (Some "pure"%string) 0%N (Some "T::AccountId"%string) []); (Field (Some "who"%string) 0%N (Some "T::AccountId"%string) []); (Field (Some "proxy_type"%string) 229%N (Some "T::ProxyType"%string) []); (Field (Some "disambiguation_index"%string) 77%N (Some "u16"%string) [])] 1%N ["A pure account has been created by new proxy with given"%string; "disambiguation index and proxy type."%string]); (Variant "Announced"%string [(Field (Some "real"%string) 0%N (Some "T::AccountId"%string) []); (Field (Some "proxy"%string) 0%N (Some "T::AccountId"%string) []); (Field (Some "call_hash"%string) 12%N (Some "CallHashOf<T>"%string) [])] 2%N ["An announcement was placed to make a call in the future."%string]); (Variant "ProxyAdded"%string [(Field (Some "delegator"%string) 0%N (Some "T::AccountId"%string) []); (Field (Some "delegatee"%string) 0%N (Some "T::AccountId"%string) []); (Field (Some "proxy_type"%string) 229%N (Some "T::ProxyType"%string) []); (Field (Some "delay"%string) 4%N (Some "T::BlockNumber"%string) [])] 3%N ["A proxy was added."%string]); (Variant "ProxyRemoved"%string [(Field (Some "delegator"%string) 0%N (Some "T::AccountId"%string) []); (Field (Some "delegatee"%string) 0%N (Some "T::AccountId"%string) []); (Field (Some "proxy_type"%string) 229%N (Some "T::ProxyType"%string) []); (Field (Some "delay"%string) 4%N (Some "T::BlockNumber"%string) [])] 4%N ["A proxy was removed."%string])]) ["
			The [event](https://docs.substrate.io/main-docs/build/events-errors/) emitted
			by this pallet.
			"%string]).
Definition md_t451 : ty := (Ty ["pallet_multisig"%string; "pallet"%string; "Event"%string] [("T"%string,None)] (TVariant [(Variant "NewMultisig"%string [(Field (Some "approving"%string) 0%N (Some "T::AccountId"%string) []); (Field (Some "multisig"%string) 0%N (Some "T::AccountId"%string) []); (Field (Some "call_hash"%string) 1%N (Some "CallHash"%string) [])] 0%N ["A new multisig operation has begun."%string]); (Variant "MultisigApproval"%string [(Field (Some "approving"%string) 0%N (Some "T::AccountId"%string) []); (Field (Some "timepoint"%string) 232%N (Some "Timepoint<T::BlockNumber>"%string) []); (Field (Some "multisig"%string) 0%N (Some "T::AccountId"%string) []); (Field (Some "call_hash"%string) 1%N (Some "CallHash"%string) [])] 1%N ["A multisig operation has been approved by someone."%string]); (Variant "MultisigExecuted"%string [(Field (Some "approving"%string) 0%N (Some "T::AccountId"%string) []); (Field (Some "timepoint"%string) 232%N (Some "Timepoint<T::BlockNumber>"%string) []); (Field (Some "multisig"%string) 0%N (Some "T::AccountId"%string) []); (Field (Some "call_hash"%string) 1%N (Some "CallHash"%string) []); (Field (Some "result"%string) 33%N (Some "DispatchResult"%string) [])] 2%N ["A multisig operation has been executed."%string]); (Variant "MultisigCancelled"%string [(Field (Some "cancelling"%string) 0%N (Some "T::AccountId"%string) []); (Field (Some "timepoint"%string) 232%N (Some "Timepoint<T::BlockNumber>"%string) []); (Field (Some "multisig"%string) 0%N (Some "T::AccountId"%string) []); (Field (Some "call_hash"%string) 1%N (Some "CallHash"%string) [])] 3%N ["A multisig operation has been cancelled."%string])]) ["
			The [event](https://docs.substrate.io/main-docs/build/events-errors/) emitted
			by this pallet.
			"%string]).
Definition md_t452 : ty := (Ty ["pallet_bounties"%string; "pallet"%string; "Event"%string] [("T"%string,None); ("I"%string,None)] (TVariant [(Variant "BountyProposed"%string [(Field (Some "index"%string) 4%N (Some "BountyIndex"%string) [])] 0%N ["New bounty proposal."%string]); (Variant "BountyRejected"%string [(Field (Some "index"%string) 4%N (Some "BountyIndex"%string) []); (Field (Some "bond"%string) 6%N (Some "BalanceOf<T, I>"%string) [])] 1%N ["A bounty proposal was rejected; funds were slashed."%string]); (Variant "BountyBecameActive"%string [(Field (Some "index"%string) 4%N (Some "BountyIndex"%string) [])] 2%N ["A bounty proposal is funded and became active."%string]); (Variant "BountyAwarded"%string [(Field (Some "index"%string) 4%N (Some "BountyIndex"%string) []); (Field (Some "beneficiary"%string) 0%N (Some "T::AccountId"%string) [])] 3%N ["A bounty is awarded to a beneficiary."%string]); (Variant "BountyClaimed"%string [(Field (Some "index"%string) 4%N (Some "BountyIndex"%string) []); (Field (Some "payout"%string) 6%N (Some "BalanceOf<T, I>"%string) []); (Field (Some "beneficiary"%string) 0%N (Some "T::AccountId"%string) [])] 4%N ["A bounty is claimed by beneficiary."%string]); (Variant "BountyCanceled"%string [(Field (Some "index"%string) 4%N (Some "BountyIndex"%string) [])] 5%N ["A bounty is cancelled."%string]); (Variant "BountyExtended"%string [(Field (Some "index"%string) 4%N (Some "BountyIndex"%string) [])] 6%N ["A bounty expiry is extended."%string])]) ["
			The [event](https://docs.substrate.io/main-docs/build/events-errors/) emitted
			by this pallet.
			"%string]).
Definition md_t453 : ty := (Ty ["pallet_child_bounties"%string; "pallet"%string; "Event"%string] [("T"%string,None)] (TVariant [(Variant "Added"%string [(Field (Some "index"%string) 4%N (Some "BountyIndex"%string) []); (Field (Some "child_index"%string) 4%N (Some "BountyIndex"%string) [])] 0%N ["A child-bounty is added."%string]); (Variant "Awarded"%string [(Field (Some "index"%string) 4%N (Some "BountyIndex"%string) []); (Field (Some "child_index"%string) 4%N (Some "BountyIndex"%string) []); (Field (Some "beneficiary"%string) 0%N (Some "T::AccountId"%string) [])] 1%N ["A child-bounty is awarded to a beneficiary."%string]); (Variant "Claimed"%string [(Field (Some "index"%string) 4%N (Some "BountyIndex"%string) []); (Field (Some "child_index"%string) 4%N (Some "BountyIndex"%string) []); (Field (Some "payout"%string) 6%N (Some "BalanceOf<T>"%string) []); (Field (Some "beneficiary"%string) 0%N (Some "T::AccountId"%string) [])] 2%N ["A child-bounty is claimed by beneficiary."%string]); (Variant "Canceled"%string [(Field (Some "index"%string) 4%N (Some "BountyIndex"%string) []); (Field (Some "child_index"%string) 4%N (Some "BountyIndex"%string) [])] 3%N ["A child-bounty is cancelled."%string])]) ["
			The [event](https://docs.substrate.io/main-docs/build/events-errors/) emitted
			by this pallet.
			"%string]).
Definition md_t454 : ty := (Ty ["pallet_tips"%string; "pallet"%string; "Event"%string] [("T"%string,None); ("I"%string,None)] (TVariant [(Variant "NewTip"%string [(Field (Some "tip_hash"%string) 12%N (Some "T::Hash"%string) [])] 0%N ["A new tip suggestion has been opened."%string]); (Variant "TipClosing"%string [(Field (Some "tip_hash"%string) 12%N (Some "T::Hash"%string) [])] 1%N ["A tip suggestion has reached threshold and is closing."%string]); (Variant "TipClosed"%string [(Field (Some "tip_hash"%string) 12%N (Some "T::Hash"%string) []); (Field (Some "who"%string) 0%N (Some "T::AccountId"%string) []); (Field (Some "payout"%string) 6%N (Some "BalanceOf<T, I>"%string) [])] 2%N ["A tip suggestion has been closed."%string]); (Variant "TipRetracted"%string [(Field (Some "tip_hash"%string) 12%N (Some "T::Hash"%string) [])] 3%N ["A tip suggestion has been retracted."%string]); (Variant "TipSlashed"%string [(Field (Some "tip_hash"%string) 12%N (Some "T::Hash"%string) []); (Field (Some "finder"%string) 0%N (Some "T::AccountId"%string) []); (Field (Some "deposit"%string) 6%N (Some "BalanceOf<T, I>"%string) [])] 4%N ["A tip suggestion has been slashed."%string])]) ["
			The [event](https://docs.substrate.io/main-docs/build/events-errors/) emitted
			by this pallet.
			"%string]).
Definition md_t455 : ty := (Ty ["pallet_election_provider_multi_phase"%string; "pallet"%string; "Event"%string] [("T"%string,None)] (TVariant [(Variant "SolutionStored"%string [(Field (Some "compute"%string) 456%N (Some "ElectionCompute"%string) []); (Field (Some "origin"%string) 144%N (Some "Option<T::AccountId>"%string) []); (Field (Some "prev_ejected"%string) 44%N (Some "bool"%string) [])] 0%N ["A solution was stored with the given compute."%string; ""%string; "The `origin` indicates the origin of the solution. If `origin` is `Some(AccountId)`,"%string; "the stored solution was submited in the signed phase by a miner with the `AccountId`."%string; "Otherwise, the solution was stored either during the unsigned phase or by"%string; "`T::ForceOrigin`. The `bool` is `true` when a previous solution was ejected to make"%string; "room for this one."%string]); (Variant "ElectionFinalized"%string [(Field (Some "compute"%string) 456%N (Some "ElectionCompute"%string) []); (Field (Some "score"%string) 289%N (Some "ElectionScore"%string) [])] 1%N ["The election has been finalized, with the given computation and score."%string]); (Variant "ElectionFailed"%string [] 2%N ["An election failed."%string; ""%string; "Not much can be said about which computes failed in the process."%string]); (Variant "Rewarded"%string [(Field (Some "account"%string) 0%N (Some "<T as frame_system::Config>::AccountId"%string) []); (Field (Some "value"%string) 6%N (Some "BalanceOf<T>"%string) [])] 3%N ["An account has been rewarded for their signed submission being finalized."%string]); (Variant "Slashed"%string [(Field (Some "account"%string) 0%N (Some "<T as frame_system::Config>::AccountId"%string) []); (Field (Some "value"%string) 6%N (Some "BalanceOf<T>"%string) [])] 4%N ["An account has been slashed for submitting an invalid signed submission."%string]); (Variant "PhaseTransitioned"%string [(Field (Some "from"%string) 457%N (Some "Phase<T::BlockNumber>"%string) []); (Field (Some "to"%string) 457%N (Some "Phase<T::BlockNumber>"%string) []); (Field (Some "round"%string) 4%N (Some "u32"%string) [])] 5%N ["There was a phase transition in a given round."%string])]) ["
			The [event](https://docs.substrate.io/main-docs/build/events-errors/) emitted
			by this pallet.
			"%string]).
Definition md_t456 : ty := (Ty ["pallet_election_provider_multi_phase"%string; "ElectionCompute"%string] [] (TVariant [(Variant "OnChain"%string [] 0%N []); (Variant "Signed"%string [] 1%N []); (Variant "Unsigned"%string [] 2%N []); (Variant "Fallback"%string [] 3%N []); (Variant "Emergency"%string [] 4%N [])]) []).
Definition md_t457 : ty := (Ty ["pallet_election_provider_multi_phase"%string; "Phase"%string] [("Bn"%string,(Some 4%N))] (TVariant [(Variant "Off"%string [] 0%N []); (Variant "Signed"%string [] 1%N []); (Variant "Unsigned"%string [(Field None 458%N (Some "(bool, Bn)"%string) [])] 2%N []); (Variant "Emergency"%string [] 3%N [])]) []).
Definition md_t458 : ty := (Ty [] [] (TTuple [44%N; 4%N]) []).
Definition md_t459 : ty := (Ty ["pallet_bags_list"%string; "pallet"%string; "Event"%string] [("T"%string,None); ("I"%string,None)] (TVariant [(Variant "Rebagged"%string [(Field (Some "who"%string) 0%N (Some "T::AccountId"%string) []); (Field (Some "from"%string) 11%N (Some "T::Score"%string) []); (Field (Some "to"%string) 11%N (Some "T::Score"%string) [])] 0%N ["Moved an account from one bag to another."%string]); (Variant "ScoreUpdated"%string [(Field (Some "who"%string) 0%N (Some "T::AccountId"%string) []); (Field (Some "new_score"%string) 11%N (Some "T::Score"%string) [])] 1%N ["Updated the score of some account to the given amount."%string])]) ["
			The [event](https://docs.substrate.io/main-docs/build/events-errors/) emitted
			by this pallet.
			"%string]).
Definition md_t460 : ty := (Ty ["pallet_nomination_pools"%string; "pallet"%string; "Event"%string] [("T"%string,None)] (TVariant [(Variant "Created"%string [(Field (Some "depositor"%string) 0%N (Some "T::AccountId"%string) []); (Field (Some "pool_id"%string) 4%N (Some "PoolId"%string) [])] 0%N ["A pool has been created."%string]); (Variant "Bonded"%string [(Field (Some "member"%string) 0%N (Some "T::AccountId"%string) []); (Field (Some "pool_id"%string) 4%N (Some "PoolId"%string) []); (Field (Some "bonded"%string) 6%N (Some "BalanceOf<T>"%string) []); (Field (Some "joined"%string) 44%N (Some "bool"%string) [])] 1%N ["A member has became bonded in a pool."%string]); (Variant "PaidOut"%string [(Field (Some "member"%string) 0%N (Some "T::AccountId"%string) []); (Field (Some "pool_id"%string) 4%N (Some "PoolId"%string) []); (Field (Some "payout"%string) 6%N (Some "BalanceOf<T>"%string) [])] 2%N ["A payout has been made to a member."%string]); (Variant "Unbonded"%string [(Field (Some "member"%string) 0%N (Some "T::AccountId"%string) []); (Field (Some "pool_id"%string) 4%N (Some "PoolId"%string) []); (Field (Some "balance"%string) 6%N (Some "BalanceOf<T>"%string) []); (Field (Some "points"%string) 6%N (Some "BalanceOf<T>"%string) []); (Field (Some "era"%string) 4%N (Some "EraIndex"%string) [])] 3%N ["A member has unbonded from their pool."%string; ""%string; "- `balance` is the corresponding balance of the number of points that has been"%string; "  requested to be unbonded (the argument of the `unbond` transaction) from the bonded"%string; "  pool."%string; "- `points` is the number of points that are issued as a result of `balance` being"%string; "dissolved into the corresponding unbonding pool."%string; "- `era` is the era in which the balance will be unbonded."%string; "In the absence of slashing, these values will match. In the presence of slashing, the"%string; "number of points that are issued in the unbonding pool will be less than the amount"%string; "requested to be unbonded."%string]); (Variant "Withdrawn"%string [(Field (Some "member"%string) 0%N (Some "T::AccountId"%string) []); (Field (Some "pool_id"%string) 4%N (Some "PoolId"%string) []); (Field (Some "balance"%string) 6%N (Some "BalanceOf<T>"%string) []); (Field (Some "points"%string) 6%N (Some "BalanceOf<T>"%string) [])] 4%N ["A member has withdrawn from their pool."%string; ""%string; "The given number of `points` have been dissolved in return of `balance`."%string; ""%string; "Similar to `Unbonded` event, in the absence of slashing, the ratio of point to balance"%string; "will be 1."%string]); (Variant "Destroyed"%string [(Field (Some "pool_id"%string) 4%N (Some "PoolId"%string) [])] 5%N ["A pool has been destroyed."%string]); (Variant "StateChanged"%string [(Field (Some "pool_id"%string) 4%N (Some "PoolId"%string) []); (Field (Some "new_state"%string) 298%N (Some "PoolState"%string) [])] 6%N ["The state of a pool has changed"%string]); (Variant "MemberRemoved"%string [(Field (Some "pool_id"%string) 4%N (Some "PoolId"%string) []); (Field (Some "member"%string) 0%N (Some "T::AccountId"%string) [])] 7%N ["A member has been removed from a pool."%string; ""%string; "The removal can be voluntary (withdrawn all unbonded funds) or involuntary (kicked)."%string]); (Variant "RolesUpdated"%string [(Field (Some "root"%string) 144%N (Some "Option<T::AccountId>"%string) []); (Field (Some "bouncer"%string) 144%N (Some "Option<T::AccountId>"%string) []); (Field (Some "nominator"%string) 144%N (Some "Option<T::AccountId>"%string) [])] 8%N ["The roles of a pool have been updated to the given new roles. Note that the depositor"%string; "can never change."%string]); (Variant "PoolSlashed"%string [(Field (Some "pool_id"%string) 4%N (Some "PoolId"%string) []); (Field (Some "balance"%string) 6%N (Some "BalanceOf<T>"%string) [])] 9%N ["The active balance of pool `pool_id` has been slashed to `balance`."%string]); (Variant "UnbondingPoolSlashed"%string [(Field (Some "pool_id"%string) 4%N (Some "PoolId"%string) []); (Field (Some "era"%string) 4%N (Some "EraIndex"%string) []); (Field (Some "balance"%string) 6%N (Some "BalanceOf<T>"%string) [])] 10%N ["The unbond pool at `era` of pool `pool_id` has been slashed to `balance`."%string]); (Variant "PoolCommissionUpdated"%string [(Field (Some "pool_id"%string) 4%N (Some "PoolId"%string) []); (Field (Some "current"%string) 304%N (Some "Option<(Perbill, T::AccountId)>"%string) [])] 11%N ["A pool's commission setting has been changed."%string]); (Variant "PoolMaxCommissionUpdated"%string [(Field (Some "pool_id"%string) 4%N (Some "PoolId"%string) []); (Field (Some "max_commission"%string) 41%N (Some "Perbill"%string) [])] 12%N ["A pool's maximum commission setting has been changed."%string]); (Variant "PoolCommissionChangeRateUpdated"%string [(Field (Some "pool_id"%string) 4%N (Some "PoolId"%string) []); (Field (Some "change_rate"%string) 306%N (Some "CommissionChangeRate<T::BlockNumber>"%string) [])] 13%N ["A pool's commission `change_rate` has been changed."%string]); (Variant "PoolCommissionClaimed"%string [(Field (Some "pool_id"%string) 4%N (Some "PoolId"%string) []); (Field (Some "commission"%string) 6%N (Some "BalanceOf<T>"%string) [])] 14%N ["Pool commission has been claimed."%string])]) ["Events of this pallet."%string]).
Definition md_t461 : ty := (Ty ["pallet_fast_unstake"%string; "pallet"%string; "Event"%string] [("T"%string,None)] (TVariant [(Variant "Unstaked"%string [(Field (Some "stash"%string) 0%N (Some "T::AccountId"%string) []); (Field (Some "result"%string) 33%N (Some "DispatchResult"%string) [])] 0%N ["A staker was unstaked."%string]); (Variant "Slashed"%string [(Field (Some "stash"%string) 0%N (Some "T::AccountId"%string) []); (Field (Some "amount"%string) 6%N (Some "BalanceOf<T>"%string) [])] 1%N ["A staker was slashed for requesting fast-unstake whilst being exposed."%string]); (Variant "InternalError"%string [] 2%N ["An internal error happened. Operations will be paused now."%string]); (Variant "BatchChecked"%string [(Field (Some "eras"%string) 109%N (Some "Vec<EraIndex>"%string) [])] 3%N ["A batch was partially checked for the given eras, but the process did not finish."%string]); (Variant "BatchFinished"%string [(Field (Some "size"%string) 4%N (Some "u32"%string) [])] 4%N ["A batch of a given size was terminated."%string; ""%string; "This is always follows by a number of `Unstaked` or `Slashed` events, marking the end"%string; "of the batch. A new batch will be created upon next block."%string])]) ["The events of this pallet."%string]).
Definition md_t462 : ty := (Ty ["polkadot_runtime_parachains"%string; "inclusion"%string; "pallet"%string; "Event"%string] [("T"%string,None)] (TVariant [(Variant "CandidateBacked"%string [(Field None 463%N (Some "CandidateReceipt<T::Hash>"%string) []); (Field None 340%N (Some "HeadData"%string) []); (Field None 464%N (Some "CoreIndex"%string) []); (Field None 465%N (Some "GroupIndex"%string) [])] 0%N ["A candidate was backed. `[candidate, head_data]`"%string]); (Variant "CandidateIncluded"%string [(Field None 463%N (Some "CandidateReceipt<T::Hash>"%string) []); (Field None 340%N (Some "HeadData"%string) []); (Field None 464%N (Some "CoreIndex"%string) []); (Field None 465%N (Some "GroupIndex"%string) [])] 1%N ["A candidate was included. `[candidate, head_data]`"%string]); (Variant "CandidateTimedOut"%string [(Field None 463%N (Some "CandidateReceipt<T::Hash>"%string) []); (Field None 340%N (Some "HeadData"%string) []); (Field None 464%N (Some "CoreIndex"%string) [])] 2%N ["A candidate timed out. `[candidate, head_data]`"%string]); (Variant "UpwardMessagesReceived"%string [(Field (Some "from"%string) 162%N (Some "ParaId"%string) []); (Field (Some "count"%string) 4%N (Some "u32"%string) [])] 3%N ["Some upward messages have been received and will be processed."%string])]) ["
			The [event](https://docs.substrate.io/main-docs/build/events-errors/) emitted
			by this pallet.
			"%string]).
Definition md_t463 : ty := (Ty ["polkadot_primitives"%string; "v4"%string; "CandidateReceipt"%string] [("H"%string,(Some 12%N))] (TComposite [(Field (Some "descriptor"%string) 329%N (Some "CandidateDescriptor<H>"%string) []); (Field (Some "commitments_hash"%string) 12%N (Some "Hash"%string) [])]) []).
Definition md_t464 : ty := (Ty ["polkadot_primitives"%string; "v4"%string; "CoreIndex"%string] [] (TComposite [(Field None 4%N (Some "u32"%string) [])]) []).
Definition md_t465 : ty := (Ty ["polkadot_primitives"%string; "v4"%string; "GroupIndex"%string] [] (TComposite [(Field None 4%N (Some "u32"%string) [])]) []).
Definition md_t466 : ty := (Ty ["polkadot_runtime_parachains"%string; "paras"%string; "pallet"%string; "Event"%string] [] (TVariant [(Variant "CurrentCodeUpdated"%string [(Field None 162%N (Some "ParaId"%string) [])] 0%N ["Current code has been updated for a Para. `para_id`"%string]); (Variant "CurrentHeadUpdated"%string [(Field None 162%N (Some "ParaId"%string) [])] 1%N ["Current head has been updated for a Para. `para_id`"%string]); (Variant "CodeUpgradeScheduled"%string [(Field None 162%N (Some "ParaId"%string) [])] 2%N ["A code upgrade has been scheduled for a Para. `para_id`"%string]); (Variant "NewHeadNoted"%string [(Field None 162%N (Some "ParaId"%string) [])] 3%N ["A new head has been noted for a Para. `para_id`"%string]); (Variant "ActionQueued"%string [(Field None 162%N (Some "ParaId"%string) []); (Field None 4%N (Some "SessionIndex"%string) [])] 4%N ["A para has been queued to execute pending actions. `para_id`"%string]); (Variant "PvfCheckStarted"%string [(Field None 332%N (Some "ValidationCodeHash"%string) []); (Field None 162%N (Some "ParaId"%string) [])] 5%N ["The given para either initiated or subscribed to a PVF check for the given validation"%string; "code. `code_hash` `para_id`"%string]); (Variant "PvfCheckAccepted"%string [(Field None 332%N (Some "ValidationCodeHash"%string) []); (Field None 162%N (Some "ParaId"%string) [])] 6%N ["The given validation code was accepted by the PVF pre-checking vote."%string; "`code_hash` `para_id`"%string]); (Variant "PvfCheckRejected"%string [(Field None 332%N (Some "ValidationCodeHash"%string) []); (Field None 162%N (Some "ParaId"%string) [])] 7%N ["The given validation code was rejected by the PVF pre-checking vote."%string; "`code_hash` `para_id`"%string])]) ["
			The [event](https://docs.substrate.io/main-docs/build/events-errors/) emitted
			by this pallet.
			"%string]).
Definition md_t467 : ty := (Ty ["polkadot_runtime_parachains"%string; "hrmp"%string; "pallet"%string; "Event"%string] [("T"%string,None)] (TVariant [(Variant "OpenChannelRequested"%string [(Field None 162%N (Some "ParaId"%string) []); (Field None 162%N (Some "ParaId"%string) []); (Field None 4%N (Some "u32"%string) []); (Field None 4%N (Some "u32"%string) [])] 0%N ["Open HRMP channel requested."%string; "`[sender, recipient, proposed_max_capacity, proposed_max_message_size]`"%string]); (Variant "OpenChannelCanceled"%string [(Field None 162%N (Some "ParaId"%string) []); (Field None 355%N (Some "HrmpChannelId"%string) [])] 1%N ["An HRMP channel request sent by the receiver was canceled by either party."%string; "`[by_parachain, channel_id]`"%string]); (Variant "OpenChannelAccepted"%string [(Field None 162%N (Some "ParaId"%string) []); (Field None 162%N (Some "ParaId"%string) [])] 2%N ["Open HRMP channel accepted. `[sender, recipient]`"%string]); (Variant "ChannelClosed"%string [(Field None 162%N (Some "ParaId"%string) []); (Field None 355%N (Some "HrmpChannelId"%string) [])] 3%N ["HRMP channel closed. `[by_parachain, channel_id]`"%string]); (Variant "HrmpChannelForceOpened"%string [(Field None 162%N (Some "ParaId"%string) []); (Field None 162%N (Some "ParaId"%string) []); (Field None 4%N (Some "u32"%string) []); (Field None 4%N (Some "u32"%string) [])] 4%N ["An HRMP channel was opened via Root origin."%string; "`[sender, recipient, proposed_max_capacity, proposed_max_message_size]`"%string])]) ["
			The [event](https://docs.substrate.io/main-docs/build/events-errors/) emitted
			by this pallet.
			"%string]).
Definition md_t468 : ty := (Ty ["polkadot_runtime_parachains"%string; "disputes"%string; "pallet"%string; "Event"%string] [("T"%string,None)] (TVariant [(Variant "DisputeInitiated"%string [(Field None 345%N (Some "CandidateHash"%string) []); (Field None 469%N (Some "DisputeLocation"%string) [])] 0%N ["A dispute has been initiated. \[candidate hash, dispute location\]"%string]); (Variant "DisputeConcluded"%string [(Field None 345%N (Some "CandidateHash"%string) []); (Field None 470%N (Some "DisputeResult"%string) [])] 1%N ["A dispute has concluded for or against a candidate."%string; "`\[para id, candidate hash, dispute result\]`"%string]); (Variant "Revert"%string [(Field None 4%N (Some "T::BlockNumber"%string) [])] 2%N ["A dispute has concluded with supermajority against a candidate."%string; "Block authors should no longer build on top of this head and should"%string; "instead revert the block at the given height. This should be the"%string; "number of the child of the last known valid block in the chain."%string])]) ["
			The [event](https://docs.substrate.io/main-docs/build/events-errors/) emitted
			by this pallet.
			"%string]).
Definition md_t469 : ty := (Ty ["polkadot_runtime_parachains"%string; "disputes"%string; "DisputeLocation"%string] [] (TVariant [(Variant "Local"%string [] 0%N []); (Variant "Remote"%string [] 1%N [])]) []).
Definition md_t470 : ty := (Ty ["polkadot_runtime_parachains"%string; "disputes"%string; "DisputeResult"%string] [] (TVariant [(Variant "Valid"%string [] 0%N []); (Variant "Invalid"%string [] 1%N [])]) []).
Definition md_t471 : ty := (Ty ["polkadot_runtime_common"%string; "paras_registrar"%string; "pallet"%string; "Event"%string] [("T"%string,None)] (TVariant [(Variant "Registered"%string [(Field (Some "para_id"%string) 162%N (Some "ParaId"%string) []); (Field (Some "manager"%string) 0%N (Some "T::AccountId"%string) [])] 0%N []); (Variant "Deregistered"%string [(Field (Some "para_id"%string) 162%N (Some "ParaId"%string) [])] 1%N []); (Variant "Reserved"%string [(Field (Some "para_id"%string) 162%N (Some "ParaId"%string) []); (Field (Some "who"%string) 0%N (Some "T::AccountId"%string) [])] 2%N []); (Variant "Swapped"%string [(Field (Some "para_id"%string) 162%N (Some "ParaId"%string) []); (Field (Some "other_id"%string) 162%N (Some "ParaId"%string) [])] 3%N [])]) ["
			The [event](https://docs.substrate.io/main-docs/build/events-errors/) emitted
			by this pallet.
			"%string]).
Definition md_t472 : ty := (Ty ["polkadot_runtime_common"%string; "slots"%string; "pallet"%string; "Event"%string] [("T"%string,None)] (TVariant [(Variant "NewLeasePeriod"%string [(Field (Some "lease_period"%string) 4%N (Some "LeasePeriodOf<T>"%string) [])] 0%N ["A new `[lease_period]` is beginning."%string]); (Variant "Leased"%string [(Field (Some "para_id"%string) 162%N (Some "ParaId"%string) []); (Field (Some "leaser"%string) 0%N (Some "T::AccountId"%string) []); (Field (Some "period_begin"%string) 4%N (Some "LeasePeriodOf<T>"%string) []); (Field (Some "period_count"%string) 4%N (Some "LeasePeriodOf<T>"%string) []); (Field (Some "extra_reserved"%string) 6%N (Some "BalanceOf<T>"%string) []); (Field (Some "total_amount"%string) 6%N (Some "BalanceOf<T>"%string) [])] 1%N ["A para has won the right to a continuous set of lease periods as a parachain."%string; "First balance is any extra amount reserved on top of the para's existing deposit."%string; "Second balance is the total amount reserved."%string])]) ["
			The [event](https://docs.substrate.io/main-docs/build/events-errors/) emitted
			by this pallet.
			"%string]).
Definition md_t473 : ty := (Ty ["polkadot_runtime_common"%string; "auctions"%string; "pallet"%string; "Event"%string] [("T"%string,None)] (TVariant [(Variant "AuctionStarted"%string [(Field (Some "auction_index"%string) 4%N (Some "AuctionIndex"%string) []); (Field (Some "lease_period"%string) 4%N (Some "LeasePeriodOf<T>"%string) []); (Field (Some "ending"%string) 4%N (Some "T::BlockNumber"%string) [])] 0%N ["An auction started. Provides its index and the block number where it will begin to"%string; "close and the first lease period of the quadruplet that is auctioned."%string]); (Variant "AuctionClosed"%string [(Field (Some "auction_index"%string) 4%N (Some "AuctionIndex"%string) [])] 1%N ["An auction ended. All funds become unreserved."%string]); (Variant "Reserved"%string [(Field (Some "bidder"%string) 0%N (Some "T::AccountId"%string) []); (Field (Some "extra_reserved"%string) 6%N (Some "BalanceOf<T>"%string) []); (Field (Some "total_amount"%string) 6%N (Some "BalanceOf<T>"%string) [])] 2%N ["Funds were reserved for a winning bid. First balance is the extra amount reserved."%string; "Second is the total."%string]); (Variant "Unreserved"%string [(Field (Some "bidder"%string) 0%N (Some "T::AccountId"%string) []); (Field (Some "amount"%string) 6%N (Some "BalanceOf<T>"%string) [])] 3%N ["Funds were unreserved since bidder is no longer active. `[bidder, amount]`"%string]); (Variant "ReserveConfiscated"%string [(Field (Some "para_id"%string) 162%N (Some "ParaId"%string) []); (Field (Some "leaser"%string) 0%N (Some "T::AccountId"%string) []); (Field (Some "amount"%string) 6%N (Some "BalanceOf<T>"%string) [])] 4%N ["Someone attempted to lease the same slot twice for a parachain. The amount is held in reserve"%string; "but no parachain slot has been leased."%string]); (Variant "BidAccepted"%string [(Field (Some "bidder"%string) 0%N (Some "T::AccountId"%string) []); (Field (Some "para_id"%string) 162%N (Some "ParaId"%string) []); (Field (Some "amount"%string) 6%N (Some "BalanceOf<T>"%string) []); (Field (Some "first_slot"%string) 4%N (Some "LeasePeriodOf<T>"%string) []); (Field (Some "last_slot"%string) 4%N (Some "LeasePeriodOf<T>"%string) [])] 5%N ["A new bid has been accepted as the current winner."%string]); (Variant "WinningOffset"%string [(Field (Some "auction_index"%string) 4%N (Some "AuctionIndex"%string) []); (Field (Some "block_number"%string) 4%N (Some "T::BlockNumber"%string) [])] 6%N ["The winning offset was chosen for an auction. This will map into the `Winning` storage map."%string])]) ["
			The [event](https://docs.substrate.io/main-docs/build/events-errors/) emitted
			by this pallet.
			"%string]).
Definition md_t474 : ty := (Ty ["polkadot_runtime_common"%string; "crowdloan"%string; "pallet"%string; "Event"%string] [("T"%string,None)] (TVariant [(Variant "Created"%string [(Field (Some "para_id"%string) 162%N (Some "ParaId"%string) [])] 0%N ["Create a new crowdloaning campaign."%string]); (Variant "Contributed"%string [(Field (Some "who"%string) 0%N (Some "T::AccountId"%string) []); (Field (Some "fund_index"%string) 162%N (Some "ParaId"%string) []); (Field (Some "amount"%string) 6%N (Some "BalanceOf<T>"%string) [])] 1%N ["Contributed to a crowd sale."%string]); (Variant "Withdrew"%string [(Field (Some "who"%string) 0%N (Some "T::AccountId"%string) []); (Field (Some "fund_index"%string) 162%N (Some "ParaId"%string) []); (Field (Some "amount"%string) 6%N (Some "BalanceOf<T>"%string) [])] 2%N ["Withdrew full balance of a contributor."%string]); (Variant "PartiallyRefunded"%string [(Field (Some "para_id"%string) 162%N (Some "ParaId"%string) [])] 3%N ["The loans in a fund have been partially dissolved, i.e. there are some left"%string; "over child keys that still need to be killed."%string]); (Variant "AllRefunded"%string [(Field (Some "para_id"%string) 162%N (Some "ParaId"%string) [])] 4%N ["All loans in a fund have been refunded."%string]); (Variant "Dissolved"%string [(Field (Some "para_id"%string) 162%N (Some "ParaId"%string) [])] 5%N ["Fund is dissolved."%string]); (Variant "HandleBidResult"%string [(Field (Some "para_id"%string) 162%N (Some "ParaId"%string) []); (Field (Some "result"%string) 33%N (Some "DispatchResult"%string) [])] 6%N ["The result of trying to submit a new bid to the Slots pallet."%string]); (Variant "Edited"%string [(Field (Some "para_id"%string) 162%N (Some "ParaId"%string) [])] 7%N ["The configuration to a crowdloan has been edited."%string]); (Variant "MemoUpdated"%string [(Field (Some "who"%string) 0%N (Some "T::AccountId"%string) []); (Field (Some "para_id"%string) 162%N (Some "ParaId"%string) []); (Field (Some "memo"%string) 13%N (Some "Vec<u8>"%string) [])] 8%N ["A memo has been updated."%string]); (Variant "AddedToNewRaise"%string [(Field (Some "para_id"%string) 162%N (Some "ParaId"%string) [])] 9%N ["A parachain has been moved to `NewRaise`"%string])]) ["
			The [event](https://docs.substrate.io/main-docs/build/events-errors/) emitted
			by this pallet.
			"%string]).
Definition md_t475 : ty := (Ty ["pallet_xcm"%string; "pallet"%string; "Event"%string] [("T"%string,None)] (TVariant [(Variant "Attempted"%string [(Field None 476%N (Some "xcm::latest::Outcome"%string) [])] 0%N ["Execution of an XCM message was attempted."%string; ""%string; "\[ outcome \]"%string]); (Variant "Sent"%string [(Field None 164%N (Some "MultiLocation"%string) []); (Field None 164%N (Some "MultiLocation"%string) []); (Field None 402%N (Some "Xcm<()>"%string) [])] 1%N ["A XCM message was sent."%string; ""%string; "\[ origin, destination, message \]"%string]); (Variant "UnexpectedResponse"%string [(Field None 164%N (Some "MultiLocation"%string) []); (Field None 11%N (Some "QueryId"%string) [])] 2%N ["Query response received which does not match a registered query. This may be because a"%string; "matching query was never registered, it may be because it is a duplicate response, or"%string; "because the query timed out."%string; ""%string; "\[ origin location, id \]"%string]); (Variant "ResponseReady"%string [(Field None 11%N (Some "QueryId"%string) []); (Field None 411%N (Some "Response"%string) [])] 3%N ["Query response has been received and is ready for taking with `take_response`. There is"%string; "no registered notification call."%string; ""%string; "\[ id, response \]"%string]); (Variant "Notified"%string [(Field None 11%N (Some "QueryId"%string) []); (Field None 2%N (Some "u8"%string) []); (Field None 2%N (Some "u8"%string) [])] 4%N ["Query response has been received and query is removed. The registered notification has"%string; "been dispatched and executed successfully."%string; ""%string; "\[ id, pallet index, call index \]"%string]); (Variant "NotifyOverweight"%string [(Field None 11%N (Some "QueryId"%string) []); (Field None 2%N (Some "u8"%string) []); (Field None 2%N (Some "u8"%string) []); (Field None 9%N (Some "Weight"%string) []); (Field None 9%N (Some "Weight"%string) [])] 5%N ["Query response has been received and query is removed. The registered notification could"%string; "not be dispatched because the dispatch weight is greater than the maximum weight"%string; "originally budgeted by this runtime for the query result."%string; ""%string; "\[ id, pallet index, call index, actual weight, max budgeted weight \]"%string]); (Variant "NotifyDispatchError"%string [(Field None 11%N (Some "QueryId"%string) []); (Field None 2%N (Some "u8"%string) []); (Field None 2%N (Some "u8"%string) [])] 6%N ["Query response has been received and query is removed. There was a general error with"%string; "dispatching the notification call."%string; ""%string; "\[ id, pallet index, call index \]"%string]); (Variant "NotifyDecodeFailed"%string [(Field None 11%N (Some "QueryId"%string) []); (Field None 2%N (Some "u8"%string) []); (Field None 2%N (Some "u8"%string) [])] 7%N ["Query response has been received and query is removed. The dispatch was unable to be"%string; "decoded into a `Call`; this might be due to dispatch function having a signature which"%string; "is not `(origin, QueryId, Response)`."%string; ""%string; "\[ id, pallet index, call index \]"%string]); (Variant "InvalidResponder"%string [(Field None 164%N (Some "MultiLocation"%string) []); (Field None 11%N (Some "QueryId"%string) []); (Field None 421%N (Some "Option<MultiLocation>"%string) [])] 8%N ["Expected query response has been received but the origin location of the response does"%string; "not match that expected. The query remains registered for a later, valid, response to"%string; "be received and acted upon."%string; ""%string; "\[ origin location, id, expected location \]"%string]); (Variant "InvalidResponderVersion"%string [(Field None 164%N (Some "MultiLocation"%string) []); (Field None 11%N (Some "QueryId"%string) [])] 9%N ["Expected query response has been received but the expected origin location placed in"%string; "storage by this runtime previously cannot be decoded. The query remains registered."%string; ""%string; "This is unexpected (since a location placed in storage in a previously executing"%string; "runtime should be readable prior to query timeout) and dangerous since the possibly"%string; "valid response will be dropped. Manual governance intervention is probably going to be"%string; "needed."%string; ""%string; "\[ origin location, id \]"%string]); (Variant "ResponseTaken"%string [(Field None 11%N (Some "QueryId"%string) [])] 10%N ["Received query response has been read and removed."%string; ""%string; "\[ id \]"%string]); (Variant "AssetsTrapped"%string [(Field None 12%N (Some "H256"%string) []); (Field None 164%N (Some "MultiLocation"%string) []); (Field None 427%N (Some "VersionedMultiAssets"%string) [])] 11%N ["Some assets have been placed in an asset trap."%string; ""%string; "\[ hash, origin, assets \]"%string]); (Variant "VersionChangeNotified"%string [(Field None 164%N (Some "MultiLocation"%string) []); (Field None 4%N (Some "XcmVersion"%string) []); (Field None 405%N (Some "MultiAssets"%string) [])] 12%N ["An XCM version change notification message has been attempted to be sent."%string; ""%string; "The cost of sending it (borne by the chain) is included."%string; ""%string; "\[ destination, result, cost \]"%string]); (Variant "SupportedVersionChanged"%string [(Field None 164%N (Some "MultiLocation"%string) []); (Field None 4%N (Some "XcmVersion"%string) [])] 13%N ["The supported version of a location has been changed. This might be through an"%string; "automatic notification or a manual intervention."%string; ""%string; "\[ location, XCM version \]"%string]); (Variant "NotifyTargetSendFail"%string [(Field None 164%N (Some "MultiLocation"%string) []); (Field None 11%N (Some "QueryId"%string) []); (Field None 414%N (Some "XcmError"%string) [])] 14%N ["A given location which had a version change subscription was dropped owing to an error"%string; "sending the notification to it."%string; ""%string; "\[ location, query ID, error \]"%string]); (Variant "NotifyTargetMigrationFail"%string [(Field None 374%N (Some "VersionedMultiLocation"%string) []); (Field None 11%N (Some "QueryId"%string) [])] 15%N ["A given location which had a version change subscription was dropped owing to an error"%string; "migrating the location to our new XCM format."%string; ""%string; "\[ location, query ID \]"%string]); (Variant "InvalidQuerierVersion"%string [(Field None 164%N (Some "MultiLocation"%string) []); (Field None 11%N (Some "QueryId"%string) [])] 16%N ["Expected query response has been received but the expected querier location placed in"%string; "storage by this runtime previously cannot be decoded. The query remains registered."%string; ""%string; "This is unexpected (since a location placed in storage in a previously executing"%string; "runtime should be readable prior to query timeout) and dangerous since the possibly"%string; "valid response will be dropped. Manual governance intervention is probably going to be"%string; "needed."%string; ""%string; "\[ origin location, id \]"%string]); (Variant "InvalidQuerier"%string [(Field None 164%N (Some "MultiLocation"%string) []); (Field None 11%N (Some "QueryId"%string) []); (Field None 164%N (Some "MultiLocation"%string) []); (Field None 421%N (Some "Option<MultiLocation>"%string) [])] 17%N ["Expected query response has been received but the querier location of the response does"%string; "not match the expected. The query remains registered for a later, valid, response to"%string; "be received and acted upon."%string; ""%string; "\[ origin location, id, expected querier, maybe actual querier \]"%string]); (Variant "VersionNotifyStarted"%string [(Field None 164%N (Some "MultiLocation"%string) []); (Field None 405%N (Some "MultiAssets"%string) [])] 18%N ["A remote has requested XCM version change notification from us and we have honored it."%string; "A version information message is sent to them and its cost is included."%string; ""%string; "\[ destination location, cost \]"%string]); (Variant "VersionNotifyRequested"%string [(Field None 164%N (Some "MultiLocation"%string) []); (Field None 405%N (Some "MultiAssets"%string) [])] 19%N ["We have requested that a remote chain sends us XCM version change notifications."%string; ""%string; "\[ destination location, cost \]"%string]); (Variant "VersionNotifyUnrequested"%string [(Field None 164%N (Some "MultiLocation"%string) []); (Field None 405%N (Some "MultiAssets"%string) [])] 20%N ["We have requested that a remote chain stops sending us XCM version change notifications."%string; ""%string; "\[ destination location, cost \]"%string]); (Variant "FeesPaid"%string [(Field None 164%N (Some "MultiLocation"%string) []); (Field None 405%N (Some "MultiAssets"%string) [])] 21%N ["Fees were paid from a location for an operation (often for using `SendXcm`)."%string; ""%string; "\[ paying location, fees \]"%string]); (Variant "AssetsClaimed"%string [(Field None 12%N (Some "H256"%string) []); (Field None 164%N (Some "MultiLocation"%string) []); (Field None 427%N (Some "VersionedMultiAssets"%string) [])] 22%N ["Some assets have been claimed from an asset trap"%string; ""%string; "\[ hash, origin, assets \]"%string])]) ["
			The [event](https://docs.substrate.io/main-docs/build/events-errors/) emitted
			by this pallet.
			"%string]).
Definition md_t476 : ty := (Ty ["xcm"%string; "v3"%string; "traits"%string; "Outcome"%string] [] (TVariant [(Variant "Complete"%string [(Field None 9%N (Some "Weight"%string) [])] 0%N []); (Variant "Incomplete"%string [(Field None 9%N (Some "Weight"%string) []); (Field None 414%N (Some "Error"%string) [])] 1%N []); (Variant "Error"%string [(Field None 414%N (Some "Error"%string) [])] 2%N [])]) []).
Definition md_t477 : ty := (Ty ["pallet_message_queue"%string; "pallet"%string; "Event"%string] [("T"%string,None)] (TVariant [(Variant "ProcessingFailed"%string [(Field (Some "id"%string) 1%N (Some "[u8; 32]"%string) []); (Field (Some "origin"%string) 437%N (Some "MessageOriginOf<T>"%string) []); (Field (Some "error"%string) 478%N (Some "ProcessMessageError"%string) [])] 0%N ["Message discarded due to an error in the `MessageProcessor` (usually a format error)."%string]); (Variant "Processed"%string [(Field (Some "id"%string) 1%N (Some "[u8; 32]"%string) []); (Field (Some "origin"%string) 437%N (Some "MessageOriginOf<T>"%string) []); (Field (Some "weight_used"%string) 9%N (Some "Weight"%string) []); (Field (Some "success"%string) 44%N (Some "bool"%string) [])] 1%N ["Message is processed."%string]); (Variant "OverweightEnqueued"%string [(Field (Some "id"%string) 1%N (Some "[u8; 32]"%string) []); (Field (Some "origin"%string) 437%N (Some "MessageOriginOf<T>"%string) []); (Field (Some "page_index"%string) 4%N (Some "PageIndex"%string) []); (Field (Some "message_index"%string) 4%N (Some "T::Size"%string) [])] 2%N ["Message placed in overweight queue."%string]); (Variant "PageReaped"%string [(Field (Some "origin"%string) 437%N (Some "MessageOriginOf<T>"%string) []); (Field (Some "index"%string) 4%N (Some "PageIndex"%string) [])] 3%N ["This page was reaped."%string])]) ["
			The [event](https://docs.substrate.io/main-docs/build/events-errors/) emitted
			by this pallet.
			"%string]).
Definition md_t478 : ty := (Ty ["frame_support"%string; "traits"%string; "messages"%string; "ProcessMessageError"%string] [] (TVariant [(Variant "BadFormat"%string [] 0%N []); (Variant "Corrupt"%string [] 1%N []); (Variant "Unsupported"%string [] 2%N []); (Variant "Overweight"%string [(Field None 9%N (Some "Weight"%string) [])] 3%N []); (Variant "Yield"%string [] 4%N [])]) []).
Definition md_t479 : ty := (Ty ["frame_system"%string; "Phase"%string] [] (TVariant [(Variant "ApplyExtrinsic"%string [(Field None 4%N (Some "u32"%string) [])] 0%N []); (Variant "Finalization"%string [] 1%N []); (Variant "Initialization"%string [] 2%N [])]) []).
Definition md_t480 : ty := (Ty [] [] (TSequence 12%N) []).
Definition md_t481 : ty := (Ty [] [] (TSequence 31%N) []).
Definition md_t482 : ty := (Ty ["frame_system"%string; "LastRuntimeUpgradeInfo"%string] [] (TComposite [(Field (Some "spec_version"%string) 91%N (Some "codec::Compact<u32>"%string) []); (Field (Some "spec_name"%string) 483%N (Some "sp_runtime::RuntimeString"%string) [])]) []).
Definition md_t483 : ty := (Ty [] [] (TPrimitive PrStr) []).
Definition md_t484 : ty := (Ty ["frame_system"%string; "limits"%string; "BlockWeights"%string] [] (TComposite [(Field (Some "base_block"%string) 9%N (Some "Weight"%string) []); (Field (Some "max_block"%string) 9%N (Some "Weight"%string) []); (Field (Some "per_class"%string) 485%N (Some "PerDispatchClass<WeightsPerClass>"%string) [])]) []).
Definition md_t485 : ty := (Ty ["frame_support"%string; "dispatch"%string; "PerDispatchClass"%string] [("T"%string,(Some 486%N))] (TComposite [(Field (Some "normal"%string) 486%N (Some "T"%string) []); (Field (Some "operational"%string) 486%N (Some "T"%string) []); (Field (Some "mandatory"%string) 486%N (Some "T"%string) [])]) []).
Definition md_t486 : ty := (Ty ["frame_system"%string; "limits"%string; "WeightsPerClass"%string] [] (TComposite [(Field (Some "base_extrinsic"%string) 9%N (Some "Weight"%string) []); (Field (Some "max_extrinsic"%string) 444%N (Some "Option<Weight>"%string) []); (Field (Some "max_total"%string) 444%N (Some "Option<Weight>"%string) []); (Field (Some "reserved"%string) 444%N (Some "Option<Weight>"%string) [])]) []).
Definition md_t487 : ty := (Ty ["frame_system"%string; "limits"%string; "BlockLength"%string] [] (TComposite [(Field (Some "max"%string) 488%N (Some "PerDispatchClass<u32>"%string) [])]) []).
Definition md_t488 : ty := (Ty ["frame_support"%string; "dispatch"%string; "PerDispatchClass"%string] [("T"%string,(Some 4%N))] (TComposite [(Field (Some "normal"%string) 4%N (Some "T"%string) []); (Field (Some "operational"%string) 4%N (Some "T"%string) []); (Field (Some "mandatory"%string) 4%N (Some "T"%string) [])]) []).
Definition md_t489 : ty := (Ty ["sp_weights"%string; "RuntimeDbWeight"%string] [] (TComposite [(Field (Some "read"%string) 11%N (Some "u64"%string) []); (Field (Some "write"%string) 11%N (Some "u64"%string) [])]) []).
Definition md_t490 : ty := (Ty ["sp_version"%string; "RuntimeVersion"%string] [] (TComposite [(Field (Some "spec_name"%string) 483%N (Some "RuntimeString"%string) []); (Field (Some "impl_name"%string) 483%N (Some "RuntimeString"%string) []); (Field (Some "authoring_version"%string) 4%N (Some "u32"%string) []); (Field (Some "spec_version"%string) 4%N (Some "u32"%string) []); (Field (Some "impl_version"%string) 4%N (Some "u32"%string) []); (Field (Some "apis"%string) 491%N (Some "ApisVec"%string) []); (Field (Some "transaction_version"%string) 4%N (Some "u32"%string) []); (Field (Some "state_version"%string) 2%N (Some "u8"%string) [])]) []).
Definition md_t491 : ty := (Ty ["Cow"%string] [("T"%string,(Some 492%N))] (TComposite [(Field None 492%N None [])]) []).
Definition md_t492 : ty := (Ty [] [] (TSequence 493%N) []).
Definition md_t493 : ty := (Ty [] [] (TTuple [198%N; 4%N]) []).
Definition md_t494 : ty := (Ty ["frame_system"%string; "pallet"%string; "Error"%string] [("T"%string,None)] (TVariant [(Variant "InvalidSpecName"%string [] 0%N ["The name of specification does not match between the current runtime"%string; "and the new runtime."%string]); (Variant "SpecVersionNeedsToIncrease"%string [] 1%N ["The specification version is not allowed to decrease between the current runtime"%string; "and the new runtime."%string]); (Variant "FailedToExtractRuntimeVersion"%string [] 2%N ["Failed to extract the runtime version from the new runtime."%string; ""%string; "Either calling `Core_version` or decoding `RuntimeVersion` failed."%string]); (Variant "NonDefaultComposite"%string [] 3%N ["Suicide called when the account has non-default composite data."%string]); (Variant "NonZeroRefCount"%string [] 4%N ["There is a non-zero reference count preventing the account from being purged."%string]); (Variant "CallFiltered"%string [] 5%N ["The origin filter prevent the call to be dispatched."%string])]) ["Error for the System pallet"%string]).
Definition md_t495 : ty := (Ty ["bounded_collections"%string; "bounded_vec"%string; "BoundedVec"%string] [("T"%string,(Some 496%N)); ("S"%string,None)] (TComposite [(Field None 498%N (Some "Vec<T>"%string) [])]) []).
Definition md_t496 : ty := (Ty ["Option"%string] [("T"%string,(Some 497%N))] (TVariant [(Variant "None"%string [] 0%N []); (Variant "Some"%string [(Field None 497%N None [])] 1%N [])]) []).
Definition md_t497 : ty := (Ty ["pallet_scheduler"%string; "Scheduled"%string] [("Name"%string,(Some 1%N)); ("Call"%string,(Some 78%N)); ("BlockNumber"%string,(Some 4%N)); ("PalletsOrigin"%string,(Some 156%N)); ("AccountId"%string,(Some 0%N))] (TComposite [(Field (Some "maybe_id"%string) 32%N (Some "Option<Name>"%string) []); (Field (Some "priority"%string) 2%N (Some "schedule::Priority"%string) []); (Field (Some "call"%string) 78%N (Some "Call"%string) []); (Field (Some "maybe_periodic"%string) 85%N (Some "Option<schedule::Period<BlockNumber>>"%string) []); (Field (Some "origin"%string) 156%N (Some "PalletsOrigin"%string) [])]) []).
Definition md_t498 : ty := (Ty [] [] (TSequence 496%N) []).
Definition md_t499 : ty := (Ty ["pallet_scheduler"%string; "pallet"%string; "Error"%string] [("T"%string,None)] (TVariant [(Variant "FailedToSchedule"%string [] 0%N ["Failed to schedule a call"%string]); (Variant "NotFound"%string [] 1%N ["Cannot find the scheduled call."%string]); (Variant "TargetBlockNumberInPast"%string [] 2%N ["Given target block number is in the past."%string]); (Variant "RescheduleNoChange"%string [] 3%N ["Reschedule failed because it does not change scheduled time."%string]); (Variant "Named"%string [] 4%N ["Attempt to use a non-named function on a named task."%string])]) ["
			Custom [dispatch errors](https://docs.substrate.io/main-docs/build/events-errors/)
			of this pallet.
			"%string]).
Definition md_t500 : ty := (Ty ["pallet_preimage"%string; "RequestStatus"%string] [("AccountId"%string,(Some 0%N)); ("Balance"%string,(Some 6%N))] (TVariant [(Variant "Unrequested"%string [(Field (Some "deposit"%string) 72%N (Some "(AccountId, Balance)"%string) []); (Field (Some "len"%string) 4%N (Some "u32"%string) [])] 0%N []); (Variant "Requested"%string [(Field (Some "deposit"%string) 501%N (Some "Option<(AccountId, Balance)>"%string) []); (Field (Some "count"%string) 4%N (Some "u32"%string) []); (Field (Some "len"%string) 141%N (Some "Option<u32>"%string) [])] 1%N [])]) []).
Definition md_t501 : ty := (Ty ["Option"%string] [("T"%string,(Some 72%N))] (TVariant [(Variant "None"%string [] 0%N []); (Variant "Some"%string [(Field None 72%N None [])] 1%N [])]) []).
Definition md_t502 : ty := (Ty [] [] (TTuple [12%N; 4%N]) []).
Definition md_t503 : ty := (Ty ["bounded_collections"%string; "bounded_vec"%string; "BoundedVec"%string] [("T"%string,(Some 2%N)); ("S"%string,None)] (TComposite [(Field None 13%N (Some "Vec<T>"%string) [])]) []).
Definition md_t504 : ty := (Ty ["pallet_preimage"%string; "pallet"%string; "Error"%string] [("T"%string,None)] (TVariant [(Variant "TooBig"%string [] 0%N ["Preimage is too large to store on-chain."%string]); (Variant "AlreadyNoted"%string [] 1%N ["Preimage has already been noted on-chain."%string]); (Variant "NotAuthorized"%string [] 2%N ["The user is not authorized to perform this action."%string]); (Variant "NotNoted"%string [] 3%N ["The preimage cannot be removed since it has not yet been noted."%string]); (Variant "Requested"%string [] 4%N ["A preimage may not be removed when there are outstanding requests."%string]); (Variant "NotRequested"%string [] 5%N ["The preimage request cannot be removed since no outstanding requests exist."%string])]) ["
			Custom [dispatch errors](https://docs.substrate.io/main-docs/build/events-errors/)
			of this pallet.
			"%string]).
Definition md_t505 : ty := (Ty ["bounded_collections"%string; "weak_bounded_vec"%string; "WeakBoundedVec"%string] [("T"%string,(Some 506%N)); ("S"%string,None)] (TComposite [(Field None 507%N (Some "Vec<T>"%string) [])]) []).
Definition md_t506 : ty := (Ty [] [] (TTuple [92%N; 11%N]) []).
Definition md_t507 : ty := (Ty [] [] (TSequence 506%N) []).
Definition md_t508 : ty := (Ty ["bounded_collections"%string; "bounded_vec"%string; "BoundedVec"%string] [("T"%string,(Some 1%N)); ("S"%string,None)] (TComposite [(Field None 509%N (Some "Vec<T>"%string) [])]) []).
Definition md_t509 : ty := (Ty [] [] (TSequence 1%N) []).
Definition md_t510 : ty := (Ty ["Option"%string] [("T"%string,(Some 511%N))] (TVariant [(Variant "None"%string [] 0%N []); (Variant "Some"%string [(Field None 511%N None [])] 1%N [])]) []).
Definition md_t511 : ty := (Ty ["sp_consensus_babe"%string; "digests"%string; "PreDigest"%string] [] (TVariant [(Variant "Primary"%string [(Field None 512%N (Some "PrimaryPreDigest"%string) [])] 1%N []); (Variant "SecondaryPlain"%string [(Field None 514%N (Some "SecondaryPlainPreDigest"%string) [])] 2%N []); (Variant "SecondaryVRF"%string [(Field None 515%N (Some "SecondaryVRFPreDigest"%string) [])] 3%N [])]) []).
Definition md_t512 : ty := (Ty ["sp_consensus_babe"%string; "digests"%string; "PrimaryPreDigest"%string] [] (TComposite [(Field (Some "authority_index"%string) 4%N (Some "super::AuthorityIndex"%string) []); (Field (Some "slot"%string) 93%N (Some "Slot"%string) []); (Field (Some "vrf_signature"%string) 513%N (Some "VrfSignature"%string) [])]) []).
Definition md_t513 : ty := (Ty ["sp_core"%string; "sr25519"%string; "vrf"%string; "VrfSignature"%string] [] (TComposite [(Field (Some "output"%string) 1%N (Some "VrfOutput"%string) []); (Field (Some "proof"%string) 126%N (Some "VrfProof"%string) [])]) []).
Definition md_t514 : ty := (Ty ["sp_consensus_babe"%string; "digests"%string; "SecondaryPlainPreDigest"%string] [] (TComposite [(Field (Some "authority_index"%string) 4%N (Some "super::AuthorityIndex"%string) []); (Field (Some "slot"%string) 93%N (Some "Slot"%string) [])]) []).
Definition md_t515 : ty := (Ty ["sp_consensus_babe"%string; "digests"%string; "SecondaryVRFPreDigest"%string] [] (TComposite [(Field (Some "authority_index"%string) 4%N (Some "super::AuthorityIndex"%string) []); (Field (Some "slot"%string) 93%N (Some "Slot"%string) []); (Field (Some "vrf_signature"%string) 513%N (Some "VrfSignature"%string) [])]) []).
Definition md_t516 : ty := (Ty ["sp_consensus_babe"%string; "BabeEpochConfiguration"%string] [] (TComposite [(Field (Some "c"%string) 96%N (Some "(u64, u64)"%string) []); (Field (Some "allowed_slots"%string) 97%N (Some "AllowedSlots"%string) [])]) []).
Definition md_t517 : ty := (Ty ["bounded_collections"%string; "bounded_vec"%string; "BoundedVec"%string] [("T"%string,(Some 518%N)); ("S"%string,None)] (TComposite [(Field None 519%N (Some "Vec<T>"%string) [])]) []).
Definition md_t518 : ty := (Ty [] [] (TTuple [11%N; 4%N]) []).
Definition md_t519 : ty := (Ty [] [] (TSequence 518%N) []).
Definition md_t520 : ty := (Ty ["pallet_babe"%string; "pallet"%string; "Error"%string] [("T"%string,None)] (TVariant [(Variant "InvalidEquivocationProof"%string [] 0%N ["An equivocation proof provided as part of an equivocation report is invalid."%string]); (Variant "InvalidKeyOwnershipProof"%string [] 1%N ["A key ownership proof provided as part of an equivocation report is invalid."%string]); (Variant "DuplicateOffenceReport"%string [] 2%N ["A given equivocation report is valid but already previously reported."%string]); (Variant "InvalidConfiguration"%string [] 3%N ["Submitted configuration is invalid."%string])]) ["
			Custom [dispatch errors](https://docs.substrate.io/main-docs/build/events-errors/)
			of this pallet.
			"%string]).
Definition md_t521 : ty := (Ty [] [] (TTuple [0%N; 6%N; 44%N]) []).
Definition md_t522 : ty := (Ty ["pallet_indices"%string; "pallet"%string; "Error"%string] [("T"%string,None)] (TVariant [(Variant "NotAssigned"%string [] 0%N ["The index was not already assigned."%string]); (Variant "NotOwner"%string [] 1%N ["The index is assigned to another account."%string]); (Variant "InUse"%string [] 2%N ["The index was not available."%string]); (Variant "NotTransfer"%string [] 3%N ["The source and destination accounts are identical."%string]); (Variant "Permanent"%string [] 4%N ["The index is permanent and may not be freed/changed."%string])]) ["
			Custom [dispatch errors](https://docs.substrate.io/main-docs/build/events-errors/)
			of this pallet.
			"%string]).
Definition md_t523 : ty := (Ty ["bounded_collections"%string; "weak_bounded_vec"%string; "WeakBoundedVec"%string] [("T"%string,(Some 524%N)); ("S"%string,None)] (TComposite [(Field None 526%N (Some "Vec<T>"%string) [])]) []).
Definition md_t524 : ty := (Ty ["pallet_balances"%string; "types"%string; "BalanceLock"%string] [("Balance"%string,(Some 6%N))] (TComposite [(Field (Some "id"%string) 198%N (Some "LockIdentifier"%string) []); (Field (Some "amount"%string) 6%N (Some "Balance"%string) []); (Field (Some "reasons"%string) 525%N (Some "Reasons"%string) [])]) []).
Definition md_t525 : ty := (Ty ["pallet_balances"%string; "types"%string; "Reasons"%string] [] (TVariant [(Variant "Fee"%string [] 0%N []); (Variant "Misc"%string [] 1%N []); (Variant "All"%string [] 2%N [])]) []).
Definition md_t526 : ty := (Ty [] [] (TSequence 524%N) []).
Definition md_t527 : ty := (Ty ["bounded_collections"%string; "bounded_vec"%string; "BoundedVec"%string] [("T"%string,(Some 528%N)); ("S"%string,None)] (TComposite [(Field None 529%N (Some "Vec<T>"%string) [])]) []).
Definition md_t528 : ty := (Ty ["pallet_balances"%string; "types"%string; "ReserveData"%string] [("ReserveIdentifier"%string,(Some 198%N)); ("Balance"%string,(Some 6%N))] (TComposite [(Field (Some "id"%string) 198%N (Some "ReserveIdentifier"%string) []); (Field (Some "amount"%string) 6%N (Some "Balance"%string) [])]) []).
Definition md_t529 : ty := (Ty [] [] (TSequence 528%N) []).
Definition md_t530 : ty := (Ty ["bounded_collections"%string; "bounded_vec"%string; "BoundedVec"%string] [("T"%string,(Some 531%N)); ("S"%string,None)] (TComposite [(Field None 532%N (Some "Vec<T>"%string) [])]) []).
Definition md_t531 : ty := (Ty ["pallet_balances"%string; "types"%string; "IdAmount"%string] [("Id"%string,(Some 34%N)); ("Balance"%string,(Some 6%N))] (TComposite [(Field (Some "id"%string) 34%N (Some "Id"%string) []); (Field (Some "amount"%string) 6%N (Some "Balance"%string) [])]) []).
Definition md_t532 : ty := (Ty [] [] (TSequence 531%N) []).
Definition md_t533 : ty := (Ty ["pallet_balances"%string; "pallet"%string; "Error"%string] [("T"%string,None); ("I"%string,None)] (TVariant [(Variant "VestingBalance"%string [] 0%N ["Vesting balance too high to send value."%string]); (Variant "LiquidityRestrictions"%string [] 1%N ["Account liquidity restrictions prevent withdrawal."%string]); (Variant "InsufficientBalance"%string [] 2%N ["Balance too low to send value."%string]); (Variant "ExistentialDeposit"%string [] 3%N ["Value too low to create account due to existential deposit."%string]); (Variant "Expendability"%string [] 4%N ["Transfer/payment would kill account."%string]); (Variant "ExistingVestingSchedule"%string [] 5%N ["A vesting schedule already exists for this account."%string]); (Variant "DeadAccount"%string [] 6%N ["Beneficiary account must pre-exist."%string]); (Variant "TooManyReserves"%string [] 7%N ["Number of named reserves exceed `MaxReserves`."%string]); (Variant "TooManyHolds"%string [] 8%N ["Number of holds exceed `MaxHolds`."%string]); (Variant "TooManyFreezes"%string [] 9%N ["Number of freezes exceed `MaxFreezes`."%string])]) ["
			Custom [dispatch errors](https://docs.substrate.io/main-docs/build/events-errors/)
			of this pallet.
			"%string]).
Definition md_t534 : ty := (Ty ["sp_arithmetic"%string; "fixed_point"%string; "FixedU128"%string] [] (TComposite [(Field None 6%N (Some "u128"%string) [])]) []).
Definition md_t535 : ty := (Ty ["pallet_transaction_payment"%string; "Releases"%string] [] (TVariant [(Variant "V1Ancient"%string [] 0%N []); (Variant "V2"%string [] 1%N [])]) []).
Definition md_t536 : ty := (Ty ["pallet_staking"%string; "StakingLedger"%string] [("T"%string,None)] (TComposite [(Field (Some "stash"%string) 0%N (Some "T::AccountId"%string) []); (Field (Some "total"%string) 60%N (Some "BalanceOf<T>"%string) []); (Field (Some "active"%string) 60%N (Some "BalanceOf<T>"%string) []); (Field (Some "unlocking"%string) 537%N (Some "BoundedVec<UnlockChunk<BalanceOf<T>>, T::MaxUnlockingChunks>"%string) []); (Field (Some "claimed_rewards"%string) 540%N (Some "BoundedVec<EraIndex, T::HistoryDepth>"%string) [])]) []).
Definition md_t537 : ty := (Ty ["bounded_collections"%string; "bounded_vec"%string; "BoundedVec"%string] [("T"%string,(Some 538%N)); ("S"%string,None)] (TComposite [(Field None 539%N (Some "Vec<T>"%string) [])]) []).
Definition md_t538 : ty := (Ty ["pallet_staking"%string; "UnlockChunk"%string] [("Balance"%string,(Some 6%N))] (TComposite [(Field (Some "value"%string) 60%N (Some "Balance"%string) []); (Field (Some "era"%string) 91%N (Some "EraIndex"%string) [])]) []).
Definition md_t539 : ty := (Ty [] [] (TSequence 538%N) []).
Definition md_t540 : ty := (Ty ["bounded_collections"%string; "bounded_vec"%string; "BoundedVec"%string] [("T"%string,(Some 4%N)); ("S"%string,None)] (TComposite [(Field None 109%N (Some "Vec<T>"%string) [])]) []).
Definition md_t541 : ty := (Ty ["pallet_staking"%string; "Nominations"%string] [("T"%string,None)] (TComposite [(Field (Some "targets"%string) 542%N (Some "BoundedVec<T::AccountId, T::MaxNominations>"%string) []); (Field (Some "submitted_in"%string) 4%N (Some "EraIndex"%string) []); (Field (Some "suppressed"%string) 44%N (Some "bool"%string) [])]) []).
Definition md_t542 : ty := (Ty ["bounded_collections"%string; "bounded_vec"%string; "BoundedVec"%string] [("T"%string,(Some 0%N)); ("S"%string,None)] (TComposite [(Field None 104%N (Some "Vec<T>"%string) [])]) []).
Definition md_t543 : ty := (Ty ["pallet_staking"%string; "ActiveEraInfo"%string] [] (TComposite [(Field (Some "index"%string) 4%N (Some "EraIndex"%string) []); (Field (Some "start"%string) 544%N (Some "Option<u64>"%string) [])]) []).
Definition md_t544 : ty := (Ty ["Option"%string] [("T"%string,(Some 11%N))] (TVariant [(Variant "None"%string [] 0%N []); (Variant "Some"%string [(Field None 11%N None [])] 1%N [])]) []).
Definition md_t545 : ty := (Ty [] [] (TTuple [4%N; 0%N]) []).
Definition md_t546 : ty := (Ty ["pallet_staking"%string; "EraRewardPoints"%string] [("AccountId"%string,(Some 0%N))] (TComposite [(Field (Some "total"%string) 4%N (Some "RewardPoint"%string) []); (Field (Some "individual"%string) 547%N (Some "BTreeMap<AccountId, RewardPoint>"%string) [])]) []).
Definition md_t547 : ty := (Ty ["BTreeMap"%string] [("K"%string,(Some 0%N)); ("V"%string,(Some 4%N))] (TComposite [(Field None 548%N None [])]) []).
Definition md_t548 : ty := (Ty [] [] (TSequence 549%N) []).
Definition md_t549 : ty := (Ty [] [] (TTuple [0%N; 4%N]) []).
Definition md_t550 : ty := (Ty [] [] (TSequence 551%N) []).
Definition md_t551 : ty := (Ty ["pallet_staking"%string; "UnappliedSlash"%string] [("AccountId"%string,(Some 0%N)); ("Balance"%string,(Some 6%N))] (TComposite [(Field (Some "validator"%string) 0%N (Some "AccountId"%string) []); (Field (Some "own"%string) 6%N (Some "Balance"%string) []); (Field (Some "others"%string) 71%N (Some "Vec<(AccountId, Balance)>"%string) []); (Field (Some "reporters"%string) 104%N (Some "Vec<AccountId>"%string) []); (Field (Some "payout"%string) 6%N (Some "Balance"%string) [])]) []).
Definition md_t552 : ty := (Ty [] [] (TTuple [41%N; 6%N]) []).
Definition md_t553 : ty := (Ty ["pallet_staking"%string; "slashing"%string; "SlashingSpans"%string] [] (TComposite [(Field (Some "span_index"%string) 4%N (Some "SpanIndex"%string) []); (Field (Some "last_start"%string) 4%N (Some "EraIndex"%string) []); (Field (Some "last_nonzero_slash"%string) 4%N (Some "EraIndex"%string) []); (Field (Some "prior"%string) 109%N (Some "Vec<EraIndex>"%string) [])]) []).
Definition md_t554 : ty := (Ty ["pallet_staking"%string; "slashing"%string; "SpanRecord"%string] [("Balance"%string,(Some 6%N))] (TComposite [(Field (Some "slashed"%string) 6%N (Some "Balance"%string) []); (Field (Some "paid_out"%string) 6%N (Some "Balance"%string) [])]) []).
Definition md_t555 : ty := (Ty [] [] (TSequence 556%N) []).
Definition md_t556 : ty := (Ty [] [] (TTuple [4%N; 44%N]) []).
Definition md_t557 : ty := (Ty ["pallet_staking"%string; "pallet"%string; "pallet"%string; "Error"%string] [("T"%string,None)] (TVariant [(Variant "NotController"%string [] 0%N ["Not a controller account."%string]); (Variant "NotStash"%string [] 1%N ["Not a stash account."%string]); (Variant "AlreadyBonded"%string [] 2%N ["Stash is already bonded."%string]); (Variant "AlreadyPaired"%string [] 3%N ["Controller is already paired."%string]); (Variant "EmptyTargets"%string [] 4%N ["Targets cannot be empty."%string]); (Variant "DuplicateIndex"%string [] 5%N ["Duplicate index."%string]); (Variant "InvalidSlashIndex"%string [] 6%N ["Slash record index out of bounds."%string]); (Variant "InsufficientBond"%string [] 7%N ["Cannot have a validator or nominator role, with value less than the minimum defined by"%string; "governance (see `MinValidatorBond` and `MinNominatorBond`). If unbonding is the"%string; "intention, `chill` first to remove one's role as validator/nominator."%string]); (Variant "NoMoreChunks"%string [] 8%N ["Can not schedule more unlock chunks."%string]); (Variant "NoUnlockChunk"%string [] 9%N ["Can not rebond without unlocking chunks."%string]); (Variant "FundedTarget"%string [] 10%N ["Attempting to target a stash that still has funds."%string]); (Variant "InvalidEraToReward"%string [] 11%N ["Invalid era to reward."%string]); (Variant "InvalidNumberOfNominations"%string [] 12%N ["Invalid number of nominations."%string]); (Variant "NotSortedAndUnique"%string [] 13%N ["Items are not sorted and unique."%string]); (Variant "AlreadyClaimed"%string [] 14%N ["Rewards for this era have already been claimed for this validator."%string]); (Variant "IncorrectHistoryDepth"%string [] 15%N ["Incorrect previous history depth input provided."%string]); (Variant "IncorrectSlashingSpans"%string [] 16%N ["Incorrect number of slashing spans provided."%string]); (Variant "BadState"%string [] 17%N ["Internal state has become somehow corrupted and the operation cannot continue."%string]); (Variant "TooManyTargets"%string [] 18%N ["Too many nomination targets supplied."%string]); (Variant "BadTarget"%string [] 19%N ["A nomination target was supplied that was blocked or otherwise not a validator."%string]); (Variant "CannotChillOther"%string [] 20%N ["The user has enough bond and thus cannot be chilled forcefully by an external person."%string]); (Variant "TooManyNominators"%string [] 21%N ["There are too many nominators in the system. Governance needs to adjust the staking"%string; "settings to keep things safe for the runtime."%string]); (Variant "TooManyValidators"%string [] 22%N ["There are too many validator candidates in the system. Governance needs to adjust the"%string; "staking settings to keep things safe for the runtime."%string]); (Variant "CommissionTooLow"%string [] 23%N ["Commission is too low. Must be at least `MinCommission`."%string]); (Variant "BoundNotMet"%string [] 24%N ["Some bound is not met."%string])]) ["
			Custom [dispatch errors](https://docs.substrate.io/main-docs/build/events-errors/)
			of this pallet.
			"%string]).
Definition md_t558 : ty := (Ty ["sp_staking"%string; "offence"%string; "OffenceDetails"%string] [("Reporter"%string,(Some 0%N)); ("Offender"%string,(Some 58%N))] (TComposite [(Field (Some "offender"%string) 58%N (Some "Offender"%string) []); (Field (Some "reporters"%string) 104%N (Some "Vec<Reporter>"%string) [])]) []).
Definition md_t559 : ty := (Ty [] [] (TTuple [47%N; 13%N]) []).
Definition md_t560 : ty := (Ty [] [] (TSequence 561%N) []).
Definition md_t561 : ty := (Ty [] [] (TTuple [0%N; 115%N]) []).
Definition md_t562 : ty := (Ty [] [] (TTuple [563%N; 13%N]) []).
Definition md_t563 : ty := (Ty ["sp_core"%string; "crypto"%string; "KeyTypeId"%string] [] (TComposite [(Field None 17%N (Some "[u8; 4]"%string) [])]) []).
Definition md_t564 : ty := (Ty ["pallet_session"%string; "pallet"%string; "Error"%string] [("T"%string,None)] (TVariant [(Variant "InvalidProof"%string [] 0%N ["Invalid ownership proof."%string]); (Variant "NoAssociatedValidatorId"%string [] 1%N ["No associated validator ID for account."%string]); (Variant "DuplicatedKey"%string [] 2%N ["Registered duplicate key."%string]); (Variant "NoKeys"%string [] 3%N ["No keys are associated with this account."%string]); (Variant "NoAccount"%string [] 4%N ["Key setting account is not live, so it's impossible to associate keys."%string])]) ["Error for the session pallet."%string]).
Definition md_t565 : ty := (Ty ["pallet_grandpa"%string; "StoredState"%string] [("N"%string,(Some 4%N))] (TVariant [(Variant "Live"%string [] 0%N []); (Variant "PendingPause"%string [(Field (Some "scheduled_at"%string) 4%N (Some "N"%string) []); (Field (Some "delay"%string) 4%N (Some "N"%string) [])] 1%N []); (Variant "Paused"%string [] 2%N []); (Variant "PendingResume"%string [(Field (Some "scheduled_at"%string) 4%N (Some "N"%string) []); (Field (Some "delay"%string) 4%N (Some "N"%string) [])] 3%N [])]) []).
Definition md_t566 : ty := (Ty ["pallet_grandpa"%string; "StoredPendingChange"%string] [("N"%string,(Some 4%N)); ("Limit"%string,None)] (TComposite [(Field (Some "scheduled_at"%string) 4%N (Some "N"%string) []); (Field (Some "delay"%string) 4%N (Some "N"%string) []); (Field (Some "next_authorities"%string) 567%N (Some "BoundedAuthorityList<Limit>"%string) []); (Field (Some "forced"%string) 141%N (Some "Option<N>"%string) [])]) []).
Definition md_t567 : ty := (Ty ["bounded_collections"%string; "weak_bounded_vec"%string; "WeakBoundedVec"%string] [("T"%string,(Some 51%N)); ("S"%string,None)] (TComposite [(Field None 50%N (Some "Vec<T>"%string) [])]) []).
Definition md_t568 : ty := (Ty ["pallet_grandpa"%string; "pallet"%string; "Error"%string] [("T"%string,None)] (TVariant [(Variant "PauseFailed"%string [] 0%N ["Attempt to signal GRANDPA pause when the authority set isn't live"%string; "(either paused or already pending pause)."%string]); (Variant "ResumeFailed"%string [] 1%N ["Attempt to signal GRANDPA resume when the authority set isn't paused"%string; "(either live or already pending resume)."%string]); (Variant "ChangePending"%string [] 2%N ["Attempt to signal GRANDPA change with one already pending."%string]); (Variant "TooSoon"%string [] 3%N ["Cannot signal forced change so soon after last."%string]); (Variant "InvalidKeyOwnershipProof"%string [] 4%N ["A key ownership proof provided as part of an equivocation report is invalid."%string]); (Variant "InvalidEquivocationProof"%string [] 5%N ["An equivocation proof provided as part of an equivocation report is invalid."%string]); (Variant "DuplicateOffenceReport"%string [] 6%N ["A given equivocation report is valid but already previously reported."%string])]) ["
			Custom [dispatch errors](https://docs.substrate.io/main-docs/build/events-errors/)
			of this pallet.
			"%string]).
Definition md_t569 : ty := (Ty ["bounded_collections"%string; "weak_bounded_vec"%string; "WeakBoundedVec"%string] [("T"%string,(Some 55%N)); ("S"%string,None)] (TComposite [(Field None 570%N (Some "Vec<T>"%string) [])]) []).
Definition md_t570 : ty := (Ty [] [] (TSequence 55%N) []).
Definition md_t571 : ty := (Ty ["frame_support"%string; "traits"%string; "misc"%string; "WrapperOpaque"%string] [("T"%string,(Some 572%N))] (TComposite [(Field None 91%N None []); (Field None 572%N (Some "T"%string) [])]) []).
Definition md_t572 : ty := (Ty ["pallet_im_online"%string; "BoundedOpaqueNetworkState"%string] [("PeerIdEncodingLimit"%string,None); ("MultiAddrEncodingLimit"%string,None); ("AddressesLimit"%string,None)] (TComposite [(Field (Some "peer_id"%string) 573%N (Some "WeakBoundedVec<u8, PeerIdEncodingLimit>"%string) []); (Field (Some "external_addresses"%string) 574%N (Some "WeakBoundedVec<WeakBoundedVec<u8, MultiAddrEncodingLimit>, AddressesLimit
>"%string) [])]) []).
Definition md_t573 : ty := (Ty ["bounded_collections"%string; "weak_bounded_vec"%string; "WeakBoundedVec"%string] [("T"%string,(Some 2%N)); ("S"%string,None)] (TComposite [(Field None 13%N (Some "Vec<T>"%string) [])]) []).
Definition md_t574 : ty := (Ty ["bounded_collections"%string; "weak_bounded_vec"%string; "WeakBoundedVec"%string] [("T"%string,(Some 573%N)); ("S"%string,None)] (TComposite [(Field None 575%N (Some "Vec<T>"%string) [])]) []).
Definition md_t575 : ty := (Ty [] [] (TSequence 573%N) []).
Definition md_t576 : ty := (Ty ["pallet_im_online"%string; "pallet"%string; "Error"%string] [("T"%string,None)] (TVariant [(Variant "InvalidKey"%string [] 0%N ["Non existent public key."%string]); (Variant "DuplicatedHeartbeat"%string [] 1%N ["Duplicated heartbeat."%string])]) ["
			Custom [dispatch errors](https://docs.substrate.io/main-docs/build/events-errors/)
			of this pallet.
			"%string]).
Definition md_t577 : ty := (Ty ["bounded_collections"%string; "bounded_vec"%string; "BoundedVec"%string] [("T"%string,(Some 578%N)); ("S"%string,None)] (TComposite [(Field None 579%N (Some "Vec<T>"%string) [])]) []).
Definition md_t578 : ty := (Ty [] [] (TTuple [4%N; 78%N; 0%N]) []).
Definition md_t579 : ty := (Ty [] [] (TSequence 578%N) []).
Definition md_t580 : ty := (Ty [] [] (TTuple [581%N; 6%N]) []).
Definition md_t581 : ty := (Ty ["bounded_collections"%string; "bounded_vec"%string; "BoundedVec"%string] [("T"%string,(Some 0%N)); ("S"%string,None)] (TComposite [(Field None 104%N (Some "Vec<T>"%string) [])]) []).
Definition md_t582 : ty := (Ty ["pallet_democracy"%string; "types"%string; "ReferendumInfo"%string] [("BlockNumber"%string,(Some 4%N)); ("Proposal"%string,(Some 78%N)); ("Balance"%string,(Some 6%N))] (TVariant [(Variant "Ongoing"%string [(Field None 583%N (Some "ReferendumStatus<BlockNumber, Proposal, Balance>"%string) [])] 0%N []); (Variant "Finished"%string [(Field (Some "approved"%string) 44%N (Some "bool"%string) []); (Field (Some "end"%string) 4%N (Some "BlockNumber"%string) [])] 1%N [])]) []).
Definition md_t583 : ty := (Ty ["pallet_democracy"%string; "types"%string; "ReferendumStatus"%string] [("BlockNumber"%string,(Some 4%N)); ("Proposal"%string,(Some 78%N)); ("Balance"%string,(Some 6%N))] (TComposite [(Field (Some "end"%string) 4%N (Some "BlockNumber"%string) []); (Field (Some "proposal"%string) 78%N (Some "Proposal"%string) []); (Field (Some "threshold"%string) 64%N (Some "VoteThreshold"%string) []); (Field (Some "delay"%string) 4%N (Some "BlockNumber"%string) []); (Field (Some "tally"%string) 584%N (Some "Tally<Balance>"%string) [])]) []).
Definition md_t584 : ty := (Ty ["pallet_democracy"%string; "types"%string; "Tally"%string] [("Balance"%string,(Some 6%N))] (TComposite [(Field (Some "ayes"%string) 6%N (Some "Balance"%string) []); (Field (Some "nays"%string) 6%N (Some "Balance"%string) []); (Field (Some "turnout"%string) 6%N (Some "Balance"%string) [])]) []).
Definition md_t585 : ty := (Ty ["pallet_democracy"%string; "vote"%string; "Voting"%string] [("Balance"%string,(Some 6%N)); ("AccountId"%string,(Some 0%N)); ("BlockNumber"%string,(Some 4%N)); ("MaxVotes"%string,None)] (TVariant [(Variant "Direct"%string [(Field (Some "votes"%string) 586%N (Some "BoundedVec<(ReferendumIndex, AccountVote<Balance>), MaxVotes>"%string) []); (Field (Some "delegations"%string) 589%N (Some "Delegations<Balance>"%string) []); (Field (Some "prior"%string) 590%N (Some "PriorLock<BlockNumber, Balance>"%string) [])] 0%N []); (Variant "Delegating"%string [(Field (Some "balance"%string) 6%N (Some "Balance"%string) []); (Field (Some "target"%string) 0%N (Some "AccountId"%string) []); (Field (Some "conviction"%string) 140%N (Some "Conviction"%string) []); (Field (Some "delegations"%string) 589%N (Some "Delegations<Balance>"%string) []); (Field (Some "prior"%string) 590%N (Some "PriorLock<BlockNumber, Balance>"%string) [])] 1%N [])]) []).
Definition md_t586 : ty := (Ty ["bounded_collections"%string; "bounded_vec"%string; "BoundedVec"%string] [("T"%string,(Some 587%N)); ("S"%string,None)] (TComposite [(Field None 588%N (Some "Vec<T>"%string) [])]) []).
Definition md_t587 : ty := (Ty [] [] (TTuple [4%N; 65%N]) []).
Definition md_t588 : ty := (Ty [] [] (TSequence 587%N) []).
Definition md_t589 : ty := (Ty ["pallet_democracy"%string; "types"%string; "Delegations"%string] [("Balance"%string,(Some 6%N))] (TComposite [(Field (Some "votes"%string) 6%N (Some "Balance"%string) []); (Field (Some "capital"%string) 6%N (Some "Balance"%string) [])]) []).
Definition md_t590 : ty := (Ty ["pallet_democracy"%string; "vote"%string; "PriorLock"%string] [("BlockNumber"%string,(Some 4%N)); ("Balance"%string,(Some 6%N))] (TComposite [(Field None 4%N (Some "BlockNumber"%string) []); (Field None 6%N (Some "Balance"%string) [])]) []).
Definition md_t591 : ty := (Ty [] [] (TTuple [78%N; 64%N]) []).
Definition md_t592 : ty := (Ty [] [] (TTuple [4%N; 581%N]) []).
Definition md_t593 : ty := (Ty ["pallet_democracy"%string; "pallet"%string; "Error"%string] [("T"%string,None)] (TVariant [(Variant "ValueLow"%string [] 0%N ["Value too low"%string]); (Variant "ProposalMissing"%string [] 1%N ["Proposal does not exist"%string]); (Variant "AlreadyCanceled"%string [] 2%N ["Cannot cancel the same proposal twice"%string]); (Variant "DuplicateProposal"%string [] 3%N ["Proposal already made"%string]); (Variant "ProposalBlacklisted"%string [] 4%N ["Proposal still blacklisted"%string]); (Variant "NotSimpleMajority"%string [] 5%N ["Next external proposal not simple majority"%string]); (Variant "InvalidHash"%string [] 6%N ["Invalid hash"%string]); (Variant "NoProposal"%string [] 7%N ["No external proposal"%string]); (Variant "AlreadyVetoed"%string [] 8%N ["Identity may not veto a proposal twice"%string]); (Variant "ReferendumInvalid"%string [] 9%N ["Vote given for invalid referendum"%string]); (Variant "NoneWaiting"%string [] 10%N ["No proposals waiting"%string]); (Variant "NotVoter"%string [] 11%N ["The given account did not vote on the referendum."%string]); (Variant "NoPermission"%string [] 12%N ["The actor has no permission to conduct the action."%string]); (Variant "AlreadyDelegating"%string [] 13%N ["The account is already delegating."%string]); (Variant "InsufficientFunds"%string [] 14%N ["Too high a balance was provided that the account cannot afford."%string]); (Variant "NotDelegating"%string [] 15%N ["The account is not currently delegating."%string]); (Variant "VotesExist"%string [] 16%N ["The account currently has votes attached to it and the operation cannot succeed until"%string; "these are removed, either through `unvote` or `reap_vote`."%string]); (Variant "InstantNotAllowed"%string [] 17%N ["The instant referendum origin is currently disallowed."%string]); (Variant "Nonsense"%string [] 18%N ["Delegation to oneself makes no sense."%string]); (Variant "WrongUpperBound"%string [] 19%N ["Invalid upper bound."%string]); (Variant "MaxVotesReached"%string [] 20%N ["Maximum number of votes reached."%string]); (Variant "TooMany"%string [] 21%N ["Maximum number of items reached."%string]); (Variant "VotingPeriodLow"%string [] 22%N ["Voting period too low"%string]); (Variant "PreimageNotExist"%string [] 23%N ["The preimage does not exist."%string])]) ["
			Custom [dispatch errors](https://docs.substrate.io/main-docs/build/events-errors/)
			of this pallet.
			"%string]).
Definition md_t594 : ty := (Ty ["bounded_collections"%string; "bounded_vec"%string; "BoundedVec"%string] [("T"%string,(Some 12%N)); ("S"%string,None)] (TComposite [(Field None 480%N (Some "Vec<T>"%string) [])]) []).
Definition md_t595 : ty := (Ty ["pallet_collective"%string; "Votes"%string] [("AccountId"%string,(Some 0%N)); ("BlockNumber"%string,(Some 4%N))] (TComposite [(Field (Some "index"%string) 4%N (Some "ProposalIndex"%string) []); (Field (Some "threshold"%string) 4%N (Some "MemberCount"%string) []); (Field (Some "ayes"%string) 104%N (Some "Vec<AccountId>"%string) []); (Field (Some "nays"%string) 104%N (Some "Vec<AccountId>"%string) []); (Field (Some "end"%string) 4%N (Some "BlockNumber"%string) [])]) []).
Definition md_t596 : ty := (Ty ["pallet_collective"%string; "pallet"%string; "Error"%string] [("T"%string,None); ("I"%string,None)] (TVariant [(Variant "NotMember"%string [] 0%N ["Account is not a member"%string]); (Variant "DuplicateProposal"%string [] 1%N ["Duplicate proposals not allowed"%string]); (Variant "ProposalMissing"%string [] 2%N ["Proposal must exist"%string]); (Variant "WrongIndex"%string [] 3%N ["Mismatched index"%string]); (Variant "DuplicateVote"%string [] 4%N ["Duplicate vote ignored"%string]); (Variant "AlreadyInitialized"%string [] 5%N ["Members are already initialized!"%string]); (Variant "TooEarly"%string [] 6%N ["The close call was made too early, before the end of the voting."%string]); (Variant "TooManyProposals"%string [] 7%N ["There can only be a maximum of `MaxProposals` active proposals."%string]); (Variant "WrongProposalWeight"%string [] 8%N ["The given weight bound for the proposal was too low."%string]); (Variant "WrongProposalLength"%string [] 9%N ["The given length bound for the proposal was too low."%string])]) ["
			Custom [dispatch errors](https://docs.substrate.io/main-docs/build/events-errors/)
			of this pallet.
			"%string]).
Definition md_t597 : ty := (Ty ["bounded_collections"%string; "bounded_vec"%string; "BoundedVec"%string] [("T"%string,(Some 12%N)); ("S"%string,None)] (TComposite [(Field None 480%N (Some "Vec<T>"%string) [])]) []).
Definition md_t598 : ty := (Ty ["pallet_collective"%string; "pallet"%string; "Error"%string] [("T"%string,None); ("I"%string,None)] (TVariant [(Variant "NotMember"%string [] 0%N ["Account is not a member"%string]); (Variant "DuplicateProposal"%string [] 1%N ["Duplicate proposals not allowed"%string]); (Variant "ProposalMissing"%string [] 2%N ["Proposal must exist"%string]); (Variant "WrongIndex"%string [] 3%N ["Mismatched index"%string]); (Variant "DuplicateVote"%string [] 4%N ["Duplicate vote ignored"%string]); (Variant "AlreadyInitialized"%string [] 5%N ["Members are already initialized!"%string]); (Variant "TooEarly"%string [] 6%N ["The close call was made too early, before the end of the voting."%string]); (Variant "TooManyProposals"%string [] 7%N ["There can only be a maximum of `MaxProposals` active proposals."%string]); (Variant "WrongProposalWeight"%string [] 8%N ["The given weight bound for the proposal was too low."%string]); (Variant "WrongProposalLength"%string [] 9%N ["The given length bound for the proposal was too low."%string])]) ["
			Custom [dispatch errors](https://docs.substrate.io/main-docs/build/events-errors/)
			of this pallet.
			"%string]).
Definition md_t599 : ty := (Ty [] [] (TSequence 600%N) []).
Definition md_t600 : ty := (Ty ["pallet_elections_phragmen"%string; "SeatHolder"%string] [("AccountId"%string,(Some 0%N)); ("Balance"%string,(Some 6%N))] (TComposite [(Field (Some "who"%string) 0%N (Some "AccountId"%string) []); (Field (Some "stake"%string) 6%N (Some "Balance"%string) []); (Field (Some "deposit"%string) 6%N (Some "Balance"%string) [])]) []).
Definition md_t601 : ty := (Ty ["pallet_elections_phragmen"%string; "Voter"%string] [("AccountId"%string,(Some 0%N)); ("Balance"%string,(Some 6%N))] (TComposite [(Field (Some "votes"%string) 104%N (Some "Vec<AccountId>"%string) []); (Field (Some "stake"%string) 6%N (Some "Balance"%string) []); (Field (Some "deposit"%string) 6%N (Some "Balance"%string) [])]) []).
Definition md_t602 : ty := (Ty ["pallet_elections_phragmen"%string; "pallet"%string; "Error"%string] [("T"%string,None)] (TVariant [(Variant "UnableToVote"%string [] 0%N ["Cannot vote when no candidates or members exist."%string]); (Variant "NoVotes"%string [] 1%N ["Must vote for at least one candidate."%string]); (Variant "TooManyVotes"%string [] 2%N ["Cannot vote more than candidates."%string]); (Variant "MaximumVotesExceeded"%string [] 3%N ["Cannot vote more than maximum allowed."%string]); (Variant "LowBalance"%string [] 4%N ["Cannot vote with stake less than minimum balance."%string]); (Variant "UnableToPayBond"%string [] 5%N ["Voter can not pay voting bond."%string]); (Variant "MustBeVoter"%string [] 6%N ["Must be a voter."%string]); (Variant "DuplicatedCandidate"%string [] 7%N ["Duplicated candidate submission."%string]); (Variant "TooManyCandidates"%string [] 8%N ["Too many candidates have been created."%string]); (Variant "MemberSubmit"%string [] 9%N ["Member cannot re-submit candidacy."%string]); (Variant "RunnerUpSubmit"%string [] 10%N ["Runner cannot re-submit candidacy."%string]); (Variant "InsufficientCandidateFunds"%string [] 11%N ["Candidate does not have enough funds."%string]); (Variant "NotMember"%string [] 12%N ["Not a member."%string]); (Variant "InvalidWitnessData"%string [] 13%N ["The provided count of number of candidates is incorrect."%string]); (Variant "InvalidVoteCount"%string [] 14%N ["The provided count of number of votes is incorrect."%string]); (Variant "InvalidRenouncing"%string [] 15%N ["The renouncing origin presented a wrong `Renouncing` parameter."%string]); (Variant "InvalidReplacement"%string [] 16%N ["Prediction regarding replacement after member removal is wrong."%string])]) ["
			Custom [dispatch errors](https://docs.substrate.io/main-docs/build/events-errors/)
			of this pallet.
			"%string]).
Definition md_t603 : ty := (Ty ["bounded_collections"%string; "bounded_vec"%string; "BoundedVec"%string] [("T"%string,(Some 0%N)); ("S"%string,None)] (TComposite [(Field None 104%N (Some "Vec<T>"%string) [])]) []).
Definition md_t604 : ty := (Ty ["pallet_membership"%string; "pallet"%string; "Error"%string] [("T"%string,None); ("I"%string,None)] (TVariant [(Variant "AlreadyMember"%string [] 0%N ["Already a member."%string]); (Variant "NotMember"%string [] 1%N ["Not a member."%string]); (Variant "TooManyMembers"%string [] 2%N ["Too many members."%string])]) ["
			Custom [dispatch errors](https://docs.substrate.io/main-docs/build/events-errors/)
			of this pallet.
			"%string]).
Definition md_t605 : ty := (Ty ["pallet_treasury"%string; "Proposal"%string] [("AccountId"%string,(Some 0%N)); ("Balance"%string,(Some 6%N))] (TComposite [(Field (Some "proposer"%string) 0%N (Some "AccountId"%string) []); (Field (Some "value"%string) 6%N (Some "Balance"%string) []); (Field (Some "beneficiary"%string) 0%N (Some "AccountId"%string) []); (Field (Some "bond"%string) 6%N (Some "Balance"%string) [])]) []).
Definition md_t606 : ty := (Ty ["bounded_collections"%string; "bounded_vec"%string; "BoundedVec"%string] [("T"%string,(Some 4%N)); ("S"%string,None)] (TComposite [(Field None 109%N (Some "Vec<T>"%string) [])]) []).
Definition md_t607 : ty := (Ty ["sp_arithmetic"%string; "per_things"%string; "Permill"%string] [] (TComposite [(Field None 4%N (Some "u32"%string) [])]) []).
Definition md_t608 : ty := (Ty ["Option"%string] [("T"%string,(Some 6%N))] (TVariant [(Variant "None"%string [] 0%N []); (Variant "Some"%string [(Field None 6%N None [])] 1%N [])]) []).
Definition md_t609 : ty := (Ty ["frame_support"%string; "PalletId"%string] [] (TComposite [(Field None 198%N (Some "[u8; 8]"%string) [])]) []).
Definition md_t610 : ty := (Ty ["pallet_treasury"%string; "pallet"%string; "Error"%string] [("T"%string,None); ("I"%string,None)] (TVariant [(Variant "InsufficientProposersBalance"%string [] 0%N ["Proposer's balance is too low."%string]); (Variant "InvalidIndex"%string [] 1%N ["No proposal or bounty at that index."%string]); (Variant "TooManyApprovals"%string [] 2%N ["Too many approvals in the queue."%string]); (Variant "InsufficientPermission"%string [] 3%N ["The spend origin is valid but the amount it is allowed to spend is lower than the"%string; "amount to be spent."%string]); (Variant "ProposalNotApproved"%string [] 4%N ["Proposal has not been approved."%string])]) ["Error for the treasury pallet."%string]).
Definition md_t611 : ty := (Ty [] [] (TTuple [0%N; 77%N]) []).
Definition md_t612 : ty := (Ty ["pallet_conviction_voting"%string; "vote"%string; "Voting"%string] [("Balance"%string,(Some 6%N)); ("AccountId"%string,(Some 0%N)); ("BlockNumber"%string,(Some 4%N)); ("PollIndex"%string,(Some 4%N)); ("MaxVotes"%string,None)] (TVariant [(Variant "Casting"%string [(Field None 613%N (Some "Casting<Balance, BlockNumber, PollIndex, MaxVotes>"%string) [])] 0%N []); (Variant "Delegating"%string [(Field None 619%N (Some "Delegating<Balance, AccountId, BlockNumber>"%string) [])] 1%N [])]) []).
Definition md_t613 : ty := (Ty ["pallet_conviction_voting"%string; "vote"%string; "Casting"%string] [("Balance"%string,(Some 6%N)); ("BlockNumber"%string,(Some 4%N)); ("PollIndex"%string,(Some 4%N)); ("MaxVotes"%string,None)] (TComposite [(Field (Some "votes"%string) 614%N (Some "BoundedVec<(PollIndex, AccountVote<Balance>), MaxVotes>"%string) []); (Field (Some "delegations"%string) 617%N (Some "Delegations<Balance>"%string) []); (Field (Some "prior"%string) 618%N (Some "PriorLock<BlockNumber, Balance>"%string) [])]) []).
Definition md_t614 : ty := (Ty ["bounded_collections"%string; "bounded_vec"%string; "BoundedVec"%string] [("T"%string,(Some 615%N)); ("S"%string,None)] (TComposite [(Field None 616%N (Some "Vec<T>"%string) [])]) []).
Definition md_t615 : ty := (Ty [] [] (TTuple [4%N; 151%N]) []).
Definition md_t616 : ty := (Ty [] [] (TSequence 615%N) []).
Definition md_t617 : ty := (Ty ["pallet_conviction_voting"%string; "types"%string; "Delegations"%string] [("Balance"%string,(Some 6%N))] (TComposite [(Field (Some "votes"%string) 6%N (Some "Balance"%string) []); (Field (Some "capital"%string) 6%N (Some "Balance"%string) [])]) []).
Definition md_t618 : ty := (Ty ["pallet_conviction_voting"%string; "vote"%string; "PriorLock"%string] [("BlockNumber"%string,(Some 4%N)); ("Balance"%string,(Some 6%N))] (TComposite [(Field None 4%N (Some "BlockNumber"%string) []); (Field None 6%N (Some "Balance"%string) [])]) []).
Definition md_t619 : ty := (Ty ["pallet_conviction_voting"%string; "vote"%string; "Delegating"%string] [("Balance"%string,(Some 6%N)); ("AccountId"%string,(Some 0%N)); ("BlockNumber"%string,(Some 4%N))] (TComposite [(Field (Some "balance"%string) 6%N (Some "Balance"%string) []); (Field (Some "target"%string) 0%N (Some "AccountId"%string) []); (Field (Some "conviction"%string) 153%N (Some "Conviction"%string) []); (Field (Some "delegations"%string) 617%N (Some "Delegations<Balance>"%string) []); (Field (Some "prior"%string) 618%N (Some "PriorLock<BlockNumber, Balance>"%string) [])]) []).
Definition md_t620 : ty := (Ty ["bounded_collections"%string; "bounded_vec"%string; "BoundedVec"%string] [("T"%string,(Some 621%N)); ("S"%string,None)] (TComposite [(Field None 622%N (Some "Vec<T>"%string) [])]) []).
Definition md_t621 : ty := (Ty [] [] (TTuple [77%N; 6%N]) []).
Definition md_t622 : ty := (Ty [] [] (TSequence 621%N) []).
Definition md_t623 : ty := (Ty ["pallet_conviction_voting"%string; "pallet"%string; "Error"%string] [("T"%string,None); ("I"%string,None)] (TVariant [(Variant "NotOngoing"%string [] 0%N ["Poll is not ongoing."%string]); (Variant "NotVoter"%string [] 1%N ["The given account did not vote on the poll."%string]); (Variant "NoPermission"%string [] 2%N ["The actor has no permission to conduct the action."%string]); (Variant "NoPermissionYet"%string [] 3%N ["The actor has no permission to conduct the action right now but will do in the future."%string]); (Variant "AlreadyDelegating"%string [] 4%N ["The account is already delegating."%string]); (Variant "AlreadyVoting"%string [] 5%N ["The account currently has votes attached to it and the operation cannot succeed until"%string; "these are removed, either through `unvote` or `reap_vote`."%string]); (Variant "InsufficientFunds"%string [] 6%N ["Too high a balance was provided that the account cannot afford."%string]); (Variant "NotDelegating"%string [] 7%N ["The account is not currently delegating."%string]); (Variant "Nonsense"%string [] 8%N ["Delegation to oneself makes no sense."%string]); (Variant "MaxVotesReached"%string [] 9%N ["Maximum number of votes reached."%string]); (Variant "ClassNeeded"%string [] 10%N ["The class must be supplied since it is not easily determinable from the state."%string]); (Variant "BadClass"%string [] 11%N ["The class ID supplied is invalid."%string])]) ["
			Custom [dispatch errors](https://docs.substrate.io/main-docs/build/events-errors/)
			of this pallet.
			"%string]).
Definition md_t624 : ty := (Ty ["pallet_referenda"%string; "types"%string; "ReferendumInfo"%string] [("TrackId"%string,(Some 77%N)); ("RuntimeOrigin"%string,(Some 156%N)); ("Moment"%string,(Some 4%N)); ("Call"%string,(Some 78%N)); ("Balance"%string,(Some 6%N)); ("Tally"%string,(Some 440%N)); ("AccountId"%string,(Some 0%N)); ("ScheduleAddress"%string,(Some 31%N))] (TVariant [(Variant "Ongoing"%string [(Field None 625%N (Some "ReferendumStatus<TrackId, RuntimeOrigin, Moment, Call, Balance, Tally,
AccountId, ScheduleAddress,>"%string) [])] 0%N []); (Variant "Approved"%string [(Field None 4%N (Some "Moment"%string) []); (Field None 627%N (Some "Option<Deposit<AccountId, Balance>>"%string) []); (Field None 627%N (Some "Option<Deposit<AccountId, Balance>>"%string) [])] 1%N []); (Variant "Rejected"%string [(Field None 4%N (Some "Moment"%string) []); (Field None 627%N (Some "Option<Deposit<AccountId, Balance>>"%string) []); (Field None 627%N (Some "Option<Deposit<AccountId, Balance>>"%string) [])] 2%N []); (Variant "Cancelled"%string [(Field None 4%N (Some "Moment"%string) []); (Field None 627%N (Some "Option<Deposit<AccountId, Balance>>"%string) []); (Field None 627%N (Some "Option<Deposit<AccountId, Balance>>"%string) [])] 3%N []); (Variant "TimedOut"%string [(Field None 4%N (Some "Moment"%string) []); (Field None 627%N (Some "Option<Deposit<AccountId, Balance>>"%string) []); (Field None 627%N (Some "Option<Deposit<AccountId, Balance>>"%string) [])] 4%N []); (Variant "Killed"%string [(Field None 4%N (Some "Moment"%string) [])] 5%N [])]) []).
Definition md_t625 : ty := (Ty ["pallet_referenda"%string; "types"%string; "ReferendumStatus"%string] [("TrackId"%string,(Some 77%N)); ("RuntimeOrigin"%string,(Some 156%N)); ("Moment"%string,(Some 4%N)); ("Call"%string,(Some 78%N)); ("Balance"%string,(Some 6%N)); ("Tally"%string,(Some 440%N)); ("AccountId"%string,(Some 0%N)); ("ScheduleAddress"%string,(Some 31%N))] (TComposite [(Field (Some "track"%string) 77%N (Some "TrackId"%string) []); (Field (Some "origin"%string) 156%N (Some "RuntimeOrigin"%string) []); (Field (Some "proposal"%string) 78%N (Some "Call"%string) []); (Field (Some "enactment"%string) 172%N (Some "DispatchTime<Moment>"%string) []); (Field (Some "submitted"%string) 4%N (Some "Moment"%string) []); (Field (Some "submission_deposit"%string) 626%N (Some "Deposit<AccountId, Balance>"%string) []); (Field (Some "decision_deposit"%string) 627%N (Some "Option<Deposit<AccountId, Balance>>"%string) []); (Field (Some "deciding"%string) 628%N (Some "Option<DecidingStatus<Moment>>"%string) []); (Field (Some "tally"%string) 440%N (Some "Tally"%string) []); (Field (Some "in_queue"%string) 44%N (Some "bool"%string) []); (Field (Some "alarm"%string) 630%N (Some "Option<(Moment, ScheduleAddress)>"%string) [])]) []).
Definition md_t626 : ty := (Ty ["pallet_referenda"%string; "types"%string; "Deposit"%string] [("AccountId"%string,(Some 0%N)); ("Balance"%string,(Some 6%N))] (TComposite [(Field (Some "who"%string) 0%N (Some "AccountId"%string) []); (Field (Some "amount"%string) 6%N (Some "Balance"%string) [])]) []).
Definition md_t627 : ty := (Ty ["Option"%string] [("T"%string,(Some 626%N))] (TVariant [(Variant "None"%string [] 0%N []); (Variant "Some"%string [(Field None 626%N None [])] 1%N [])]) []).
Definition md_t628 : ty := (Ty ["Option"%string] [("T"%string,(Some 629%N))] (TVariant [(Variant "None"%string [] 0%N []); (Variant "Some"%string [(Field None 629%N None [])] 1%N [])]) []).
Definition md_t629 : ty := (Ty ["pallet_referenda"%string; "types"%string; "DecidingStatus"%string] [("BlockNumber"%string,(Some 4%N))] (TComposite [(Field (Some "since"%string) 4%N (Some "BlockNumber"%string) []); (Field (Some "confirming"%string) 141%N (Some "Option<BlockNumber>"%string) [])]) []).
Definition md_t630 : ty := (Ty ["Option"%string] [("T"%string,(Some 631%N))] (TVariant [(Variant "None"%string [] 0%N []); (Variant "Some"%string [(Field None 631%N None [])] 1%N [])]) []).
Definition md_t631 : ty := (Ty [] [] (TTuple [4%N; 31%N]) []).
Definition md_t632 : ty := (Ty ["bounded_collections"%string; "bounded_vec"%string; "BoundedVec"%string] [("T"%string,(Some 633%N)); ("S"%string,None)] (TComposite [(Field None 634%N (Some "Vec<T>"%string) [])]) []).
Definition md_t633 : ty := (Ty [] [] (TTuple [4%N; 6%N]) []).
Definition md_t634 : ty := (Ty [] [] (TSequence 633%N) []).
Definition md_t635 : ty := (Ty [] [] (TSequence 636%N) []).
Definition md_t636 : ty := (Ty [] [] (TTuple [77%N; 637%N]) []).
Definition md_t637 : ty := (Ty ["pallet_referenda"%string; "types"%string; "TrackInfo"%string] [("Balance"%string,(Some 6%N)); ("Moment"%string,(Some 4%N))] (TComposite [(Field (Some "name"%string) 483%N (Some "&'static str"%string) []); (Field (Some "max_deciding"%string) 4%N (Some "u32"%string) []); (Field (Some "decision_deposit"%string) 6%N (Some "Balance"%string) []); (Field (Some "prepare_period"%string) 4%N (Some "Moment"%string) []); (Field (Some "decision_period"%string) 4%N (Some "Moment"%string) []); (Field (Some "confirm_period"%string) 4%N (Some "Moment"%string) []); (Field (Some "min_enactment_period"%string) 4%N (Some "Moment"%string) []); (Field (Some "min_approval"%string) 638%N (Some "Curve"%string) []); (Field (Some "min_support"%string) 638%N (Some "Curve"%string) [])]) []).
Definition md_t638 : ty := (Ty ["pallet_referenda"%string; "types"%string; "Curve"%string] [] (TVariant [(Variant "LinearDecreasing"%string [(Field (Some "length"%string) 41%N (Some "Perbill"%string) []); (Field (Some "floor"%string) 41%N (Some "Perbill"%string) []); (Field (Some "ceil"%string) 41%N (Some "Perbill"%string) [])] 0%N []); (Variant "SteppedDecreasing"%string [(Field (Some "begin"%string) 41%N (Some "Perbill"%string) []); (Field (Some "end"%string) 41%N (Some "Perbill"%string) []); (Field (Some "step"%string) 41%N (Some "Perbill"%string) []); (Field (Some "period"%string) 41%N (Some "Perbill"%string) [])] 1%N []); (Variant "Reciprocal"%string [(Field (Some "factor"%string) 639%N (Some "FixedI64"%string) []); (Field (Some "x_offset"%string) 639%N (Some "FixedI64"%string) []); (Field (Some "y_offset"%string) 639%N (Some "FixedI64"%string) [])] 2%N [])]) []).
Definition md_t639 : ty := (Ty ["sp_arithmetic"%string; "fixed_point"%string; "FixedI64"%string] [] (TComposite [(Field None 640%N (Some "i64"%string) [])]) []).
Definition md_t640 : ty := (Ty [] [] (TPrimitive (PrI U64)) []).
Definition md_t641 : ty := (Ty ["pallet_referenda"%string; "pallet"%string; "Error"%string] [("T"%string,None); ("I"%string,None)] (TVariant [(Variant "NotOngoing"%string [] 0%N ["Referendum is not ongoing."%string]); (Variant "HasDeposit"%string [] 1%N ["Referendum's decision deposit is already paid."%string]); (Variant "BadTrack"%string [] 2%N ["The track identifier given was invalid."%string]); (Variant "Full"%string [] 3%N ["There are already a full complement of referenda in progress for this track."%string]); (Variant "QueueEmpty"%string [] 4%N ["The queue of the track is empty."%string]); (Variant "BadReferendum"%string [] 5%N ["The referendum index provided is invalid in this context."%string]); (Variant "NothingToDo"%string [] 6%N ["There was nothing to do in the advancement."%string]); (Variant "NoTrack"%string [] 7%N ["No track exists for the proposal origin."%string]); (Variant "Unfinished"%string [] 8%N ["Any deposit cannot be refunded until after the decision is over."%string]); (Variant "NoPermission"%string [] 9%N ["The deposit refunder is not the depositor."%string]); (Variant "NoDeposit"%string [] 10%N ["The deposit cannot be refunded since none was made."%string]); (Variant "BadStatus"%string [] 11%N ["The referendum status is invalid for this operation."%string]); (Variant "PreimageNotExist"%string [] 12%N ["The preimage does not exist."%string])]) ["
			Custom [dispatch errors](https://docs.substrate.io/main-docs/build/events-errors/)
			of this pallet.
			"%string]).
Definition md_t642 : ty := (Ty ["pallet_whitelist"%string; "pallet"%string; "Error"%string] [("T"%string,None)] (TVariant [(Variant "UnavailablePreImage"%string [] 0%N ["The preimage of the call hash could not be loaded."%string]); (Variant "UndecodableCall"%string [] 1%N ["The call could not be decoded."%string]); (Variant "InvalidCallWeightWitness"%string [] 2%N ["The weight of the decoded call was higher than the witness."%string]); (Variant "CallIsNotWhitelisted"%string [] 3%N ["The call was not whitelisted."%string]); (Variant "CallAlreadyWhitelisted"%string [] 4%N ["The call was already whitelisted; No-Op."%string])]) ["
			Custom [dispatch errors](https://docs.substrate.io/main-docs/build/events-errors/)
			of this pallet.
			"%string]).
Definition md_t643 : ty := (Ty ["polkadot_runtime_common"%string; "claims"%string; "pallet"%string; "Error"%string] [("T"%string,None)] (TVariant [(Variant "InvalidEthereumSignature"%string [] 0%N ["Invalid Ethereum signature."%string]); (Variant "SignerHasNoClaim"%string [] 1%N ["Ethereum address has no claim."%string]); (Variant "SenderHasNoClaim"%string [] 2%N ["Account ID sending transaction has no claim."%string]); (Variant "PotUnderflow"%string [] 3%N ["There's not enough in the pot to pay out some unvested amount. Generally implies a logic"%string; "error."%string]); (Variant "InvalidStatement"%string [] 4%N ["A needed statement was not included."%string]); (Variant "VestedBalanceExists"%string [] 5%N ["The account already has a vested balance."%string])]) ["
			Custom [dispatch errors](https://docs.substrate.io/main-docs/build/events-errors/)
			of this pallet.
			"%string]).
Definition md_t644 : ty := (Ty ["bounded_collections"%string; "bounded_vec"%string; "BoundedVec"%string] [("T"%string,(Some 183%N)); ("S"%string,None)] (TComposite [(Field None 645%N (Some "Vec<T>"%string) [])]) []).
Definition md_t645 : ty := (Ty [] [] (TSequence 183%N) []).
Definition md_t646 : ty := (Ty ["pallet_vesting"%string; "Releases"%string] [] (TVariant [(Variant "V0"%string [] 0%N []); (Variant "V1"%string [] 1%N [])]) []).
Definition md_t647 : ty := (Ty ["pallet_vesting"%string; "pallet"%string; "Error"%string] [("T"%string,None)] (TVariant [(Variant "NotVesting"%string [] 0%N ["The account given is not vesting."%string]); (Variant "AtMaxVestingSchedules"%string [] 1%N ["The account already has `MaxVestingSchedules` count of schedules and thus"%string; "cannot add another one. Consider merging existing schedules in order to add another."%string]); (Variant "AmountLow"%string [] 2%N ["Amount being transferred is too low to create a vesting schedule."%string]); (Variant "ScheduleIndexOutOfBounds"%string [] 3%N ["An index was out of bounds of the vesting schedules."%string]); (Variant "InvalidScheduleParams"%string [] 4%N ["Failed to create a new schedule because some parameter was invalid."%string])]) ["Error for the vesting pallet."%string]).
Definition md_t648 : ty := (Ty ["pallet_utility"%string; "pallet"%string; "Error"%string] [("T"%string,None)] (TVariant [(Variant "TooManyCalls"%string [] 0%N ["Too many calls batched."%string])]) ["
			Custom [dispatch errors](https://docs.substrate.io/main-docs/build/events-errors/)
			of this pallet.
			"%string]).
Definition md_t649 : ty := (Ty ["pallet_identity"%string; "types"%string; "Registration"%string] [("Balance"%string,(Some 6%N)); ("MaxJudgements"%string,None); ("MaxAdditionalFields"%string,None)] (TComposite [(Field (Some "judgements"%string) 650%N (Some "BoundedVec<(RegistrarIndex, Judgement<Balance>), MaxJudgements>"%string) []); (Field (Some "deposit"%string) 6%N (Some "Balance"%string) []); (Field (Some "info"%string) 187%N (Some "IdentityInfo<MaxAdditionalFields>"%string) [])]) []).
Definition md_t650 : ty := (Ty ["bounded_collections"%string; "bounded_vec"%string; "BoundedVec"%string] [("T"%string,(Some 651%N)); ("S"%string,None)] (TComposite [(Field None 652%N (Some "Vec<T>"%string) [])]) []).
Definition md_t651 : ty := (Ty [] [] (TTuple [4%N; 226%N]) []).
Definition md_t652 : ty := (Ty [] [] (TSequence 651%N) []).
Definition md_t653 : ty := (Ty [] [] (TTuple [6%N; 654%N]) []).
Definition md_t654 : ty := (Ty ["bounded_collections"%string; "bounded_vec"%string; "BoundedVec"%string] [("T"%string,(Some 0%N)); ("S"%string,None)] (TComposite [(Field None 104%N (Some "Vec<T>"%string) [])]) []).
Definition md_t655 : ty := (Ty ["bounded_collections"%string; "bounded_vec"%string; "BoundedVec"%string] [("T"%string,(Some 656%N)); ("S"%string,None)] (TComposite [(Field None 658%N (Some "Vec<T>"%string) [])]) []).
Definition md_t656 : ty := (Ty ["Option"%string] [("T"%string,(Some 657%N))] (TVariant [(Variant "None"%string [] 0%N []); (Variant "Some"%string [(Field None 657%N None [])] 1%N [])]) []).
Definition md_t657 : ty := (Ty ["pallet_identity"%string; "types"%string; "RegistrarInfo"%string] [("Balance"%string,(Some 6%N)); ("AccountId"%string,(Some 0%N))] (TComposite [(Field (Some "account"%string) 0%N (Some "AccountId"%string) []); (Field (Some "fee"%string) 6%N (Some "Balance"%string) []); (Field (Some "fields"%string) 224%N (Some "IdentityFields"%string) [])]) []).
Definition md_t658 : ty := (Ty [] [] (TSequence 656%N) []).
Definition md_t659 : ty := (Ty ["pallet_identity"%string; "pallet"%string; "Error"%string] [("T"%string,None)] (TVariant [(Variant "TooManySubAccounts"%string [] 0%N ["Too many subs-accounts."%string]); (Variant "NotFound"%string [] 1%N ["Account isn't found."%string]); (Variant "NotNamed"%string [] 2%N ["Account isn't named."%string]); (Variant "EmptyIndex"%string [] 3%N ["Empty index."%string]); (Variant "FeeChanged"%string [] 4%N ["Fee is changed."%string]); (Variant "NoIdentity"%string [] 5%N ["No identity found."%string]); (Variant "StickyJudgement"%string [] 6%N ["Sticky judgement."%string]); (Variant "JudgementGiven"%string [] 7%N ["Judgement given."%string]); (Variant "InvalidJudgement"%string [] 8%N ["Invalid judgement."%string]); (Variant "InvalidIndex"%string [] 9%N ["The index is invalid."%string]); (Variant "InvalidTarget"%string [] 10%N ["The target is invalid."%string]); (Variant "TooManyFields"%string [] 11%N ["Too many additional fields."%string]); (Variant "TooManyRegistrars"%string [] 12%N ["Maximum amount of registrars reached. Cannot add any more."%string]); (Variant "AlreadyClaimed"%string [] 13%N ["Account ID is already named."%string]); (Variant "NotSub"%string [] 14%N ["Sender is not a sub-account."%string]); (Variant "NotOwned"%string [] 15%N ["Sub-account isn't owned by sender."%string]); (Variant "JudgementForDifferentIdentity"%string [] 16%N ["The provided judgement was for a different identity."%string]); (Variant "JudgementPaymentFailed"%string [] 17%N ["Error that occurs when there is an issue paying for judgement."%string])]) ["
			Custom [dispatch errors](https://docs.substrate.io/main-docs/build/events-errors/)
			of this pallet.
			"%string]).
Definition md_t660 : ty := (Ty [] [] (TTuple [661%N; 6%N]) []).
Definition md_t661 : ty := (Ty ["bounded_collections"%string; "bounded_vec"%string; "BoundedVec"%string] [("T"%string,(Some 662%N)); ("S"%string,None)] (TComposite [(Field None 663%N (Some "Vec<T>"%string) [])]) []).
Definition md_t662 : ty := (Ty ["pallet_proxy"%string; "ProxyDefinition"%string] [("AccountId"%string,(Some 0%N)); ("ProxyType"%string,(Some 229%N)); ("BlockNumber"%string,(Some 4%N))] (TComposite [(Field (Some "delegate"%string) 0%N (Some "AccountId"%string) []); (Field (Some "proxy_type"%string) 229%N (Some "ProxyType"%string) []); (Field (Some "delay"%string) 4%N (Some "BlockNumber"%string) [])]) []).
Definition md_t663 : ty := (Ty [] [] (TSequence 662%N) []).
Definition md_t664 : ty := (Ty [] [] (TTuple [665%N; 6%N]) []).
Definition md_t665 : ty := (Ty ["bounded_collections"%string; "bounded_vec"%string; "BoundedVec"%string] [("T"%string,(Some 666%N)); ("S"%string,None)] (TComposite [(Field None 667%N (Some "Vec<T>"%string) [])]) []).
Definition md_t666 : ty := (Ty ["pallet_proxy"%string; "Announcement"%string] [("AccountId"%string,(Some 0%N)); ("Hash"%string,(Some 12%N)); ("BlockNumber"%string,(Some 4%N))] (TComposite [(Field (Some "real"%string) 0%N (Some "AccountId"%string) []); (Field (Some "call_hash"%string) 12%N (Some "Hash"%string) []); (Field (Some "height"%string) 4%N (Some "BlockNumber"%string) [])]) []).
Definition md_t667 : ty := (Ty [] [] (TSequence 666%N) []).
Definition md_t668 : ty := (Ty ["pallet_proxy"%string; "pallet"%string; "Error"%string] [("T"%string,None)] (TVariant [(Variant "TooMany"%string [] 0%N ["There are too many proxies registered or too many announcements pending."%string]); (Variant "NotFound"%string [] 1%N ["Proxy registration not found."%string]); (Variant "NotProxy"%string [] 2%N ["Sender is not a proxy of the account to be proxied."%string]); (Variant "Unproxyable"%string [] 3%N ["A call which is incompatible with the proxy type's filter was attempted."%string]); (Variant "Duplicate"%string [] 4%N ["Account is already a proxy."%string]); (Variant "NoPermission"%string [] 5%N ["Call may not be made by proxy because it may escalate its privileges."%string]); (Variant "Unannounced"%string [] 6%N ["Announcement, if made at all, was made too recently."%string]); (Variant "NoSelfProxy"%string [] 7%N ["Cannot add self as proxy."%string])]) ["
			Custom [dispatch errors](https://docs.substrate.io/main-docs/build/events-errors/)
			of this pallet.
			"%string]).
Definition md_t669 : ty := (Ty [] [] (TTuple [0%N; 1%N]) []).
Definition md_t670 : ty := (Ty ["pallet_multisig"%string; "Multisig"%string] [("BlockNumber"%string,(Some 4%N)); ("Balance"%string,(Some 6%N)); ("AccountId"%string,(Some 0%N)); ("MaxApprovals"%string,None)] (TComposite [(Field (Some "when"%string) 232%N (Some "Timepoint<BlockNumber>"%string) []); (Field (Some "deposit"%string) 6%N (Some "Balance"%string) []); (Field (Some "depositor"%string) 0%N (Some "AccountId"%string) []); (Field (Some "approvals"%string) 671%N (Some "BoundedVec<AccountId, MaxApprovals>"%string) [])]) []).
Definition md_t671 : ty := (Ty ["bounded_collections"%string; "bounded_vec"%string; "BoundedVec"%string] [("T"%string,(Some 0%N)); ("S"%string,None)] (TComposite [(Field None 104%N (Some "Vec<T>"%string) [])]) []).
Definition md_t672 : ty := (Ty ["pallet_multisig"%string; "pallet"%string; "Error"%string] [("T"%string,None)] (TVariant [(Variant "MinimumThreshold"%string [] 0%N ["Threshold must be 2 or greater."%string]); (Variant "AlreadyApproved"%string [] 1%N ["Call is already approved by this signatory."%string]); (Variant "NoApprovalsNeeded"%string [] 2%N ["Call doesn't need any (more) approvals."%string]); (Variant "TooFewSignatories"%string [] 3%N ["There are too few signatories in the list."%string]); (Variant "TooManySignatories"%string [] 4%N ["There are too many signatories in the list."%string]); (Variant "SignatoriesOutOfOrder"%string [] 5%N ["The signatories were provided out of order; they should be ordered."%string]); (Variant "SenderInSignatories"%string [] 6%N ["The sender was contained in the other signatories; it shouldn't be."%string]); (Variant "NotFound"%string [] 7%N ["Multisig operation not found when attempting to cancel."%string]); (Variant "NotOwner"%string [] 8%N ["Only the account that originally created the multisig is able to cancel it."%string]); (Variant "NoTimepoint"%string [] 9%N ["No timepoint was given, yet the multisig operation is already underway."%string]); (Variant "WrongTimepoint"%string [] 10%N ["A different timepoint was given to the multisig operation that is underway."%string]); (Variant "UnexpectedTimepoint"%string [] 11%N ["A timepoint was given, yet no multisig operation is underway."%string]); (Variant "MaxWeightTooLow"%string [] 12%N ["The maximum weight information provided was too low."%string]); (Variant "AlreadyStored"%string [] 13%N ["The data to be stored is already stored."%string])]) ["
			Custom [dispatch errors](https://docs.substrate.io/main-docs/build/events-errors/)
			of this pallet.
			"%string]).
Definition md_t673 : ty := (Ty ["pallet_bounties"%string; "Bounty"%string] [("AccountId"%string,(Some 0%N)); ("Balance"%string,(Some 6%N)); ("BlockNumber"%string,(Some 4%N))] (TComposite [(Field (Some "proposer"%string) 0%N (Some "AccountId"%string) []); (Field (Some "value"%string) 6%N (Some "Balance"%string) []); (Field (Some "fee"%string) 6%N (Some "Balance"%string) []); (Field (Some "curator_deposit"%string) 6%N (Some "Balance"%string) []); (Field (Some "bond"%string) 6%N (Some "Balance"%string) []); (Field (Some "status"%string) 674%N (Some "BountyStatus<AccountId, BlockNumber>"%string) [])]) []).
Definition md_t674 : ty := (Ty ["pallet_bounties"%string; "BountyStatus"%string] [("AccountId"%string,(Some 0%N)); ("BlockNumber"%string,(Some 4%N))] (TVariant [(Variant "Proposed"%string [] 0%N []); (Variant "Approved"%string [] 1%N []); (Variant "Funded"%string [] 2%N []); (Variant "CuratorProposed"%string [(Field (Some "curator"%string) 0%N (Some "AccountId"%string) [])] 3%N []); (Variant "Active"%string [(Field (Some "curator"%string) 0%N (Some "AccountId"%string) []); (Field (Some "update_due"%string) 4%N (Some "BlockNumber"%string) [])] 4%N []); (Variant "PendingPayout"%string [(Field (Some "curator"%string) 0%N (Some "AccountId"%string) []); (Field (Some "beneficiary"%string) 0%N (Some "AccountId"%string) []); (Field (Some "unlock_at"%string) 4%N (Some "BlockNumber"%string) [])] 5%N [])]) []).
Definition md_t675 : ty := (Ty ["bounded_collections"%string; "bounded_vec"%string; "BoundedVec"%string] [("T"%string,(Some 2%N)); ("S"%string,None)] (TComposite [(Field None 13%N (Some "Vec<T>"%string) [])]) []).
Definition md_t676 : ty := (Ty ["pallet_bounties"%string; "pallet"%string; "Error"%string] [("T"%string,None); ("I"%string,None)] (TVariant [(Variant "InsufficientProposersBalance"%string [] 0%N ["Proposer's balance is too low."%string]); (Variant "InvalidIndex"%string [] 1%N ["No proposal or bounty at that index."%string]); (Variant "ReasonTooBig"%string [] 2%N ["The reason given is just too big."%string]); (Variant "UnexpectedStatus"%string [] 3%N ["The bounty status is unexpected."%string]); (Variant "RequireCurator"%string [] 4%N ["Require bounty curator."%string]); (Variant "InvalidValue"%string [] 5%N ["Invalid bounty value."%string]); (Variant "InvalidFee"%string [] 6%N ["Invalid bounty fee."%string]); (Variant "PendingPayout"%string [] 7%N ["A bounty payout is pending."%string; "To cancel the bounty, you must unassign and slash the curator."%string]); (Variant "Premature"%string [] 8%N ["The bounties cannot be claimed/closed because it's still in the countdown period."%string]); (Variant "HasActiveChildBounty"%string [] 9%N ["The bounty cannot be closed because it has active child bounties."%string]); (Variant "TooManyQueued"%string [] 10%N ["Too many approvals are already queued."%string])]) ["
			Custom [dispatch errors](https://docs.substrate.io/main-docs/build/events-errors/)
			of this pallet.
			"%string]).
Definition md_t677 : ty := (Ty ["pallet_child_bounties"%string; "ChildBounty"%string] [("AccountId"%string,(Some 0%N)); ("Balance"%string,(Some 6%N)); ("BlockNumber"%string,(Some 4%N))] (TComposite [(Field (Some "parent_bounty"%string) 4%N (Some "BountyIndex"%string) []); (Field (Some "value"%string) 6%N (Some "Balance"%string) []); (Field (Some "fee"%string) 6%N (Some "Balance"%string) []); (Field (Some "curator_deposit"%string) 6%N (Some "Balance"%string) []); (Field (Some "status"%string) 678%N (Some "ChildBountyStatus<AccountId, BlockNumber>"%string) [])]) []).
Definition md_t678 : ty := (Ty ["pallet_child_bounties"%string; "ChildBountyStatus"%string] [("AccountId"%string,(Some 0%N)); ("BlockNumber"%string,(Some 4%N))] (TVariant [(Variant "Added"%string [] 0%N []); (Variant "CuratorProposed"%string [(Field (Some "curator"%string) 0%N (Some "AccountId"%string) [])] 1%N []); (Variant "Active"%string [(Field (Some "curator"%string) 0%N (Some "AccountId"%string) [])] 2%N []); (Variant "PendingPayout"%string [(Field (Some "curator"%string) 0%N (Some "AccountId"%string) []); (Field (Some "beneficiary"%string) 0%N (Some "AccountId"%string) []); (Field (Some "unlock_at"%string) 4%N (Some "BlockNumber"%string) [])] 3%N [])]) []).
Definition md_t679 : ty := (Ty ["pallet_child_bounties"%string; "pallet"%string; "Error"%string] [("T"%string,None)] (TVariant [(Variant "ParentBountyNotActive"%string [] 0%N ["The parent bounty is not in active state."%string]); (Variant "InsufficientBountyBalance"%string [] 1%N ["The bounty balance is not enough to add new child-bounty."%string]); (Variant "TooManyChildBounties"%string [] 2%N ["Number of child bounties exceeds limit `MaxActiveChildBountyCount`."%string])]) ["
			Custom [dispatch errors](https://docs.substrate.io/main-docs/build/events-errors/)
			of this pallet.
			"%string]).
Definition md_t680 : ty := (Ty ["pallet_tips"%string; "OpenTip"%string] [("AccountId"%string,(Some 0%N)); ("Balance"%string,(Some 6%N)); ("BlockNumber"%string,(Some 4%N)); ("Hash"%string,(Some 12%N))] (TComposite [(Field (Some "reason"%string) 12%N (Some "Hash"%string) []); (Field (Some "who"%string) 0%N (Some "AccountId"%string) []); (Field (Some "finder"%string) 0%N (Some "AccountId"%string) []); (Field (Some "deposit"%string) 6%N (Some "Balance"%string) []); (Field (Some "closes"%string) 141%N (Some "Option<BlockNumber>"%string) []); (Field (Some "tips"%string) 71%N (Some "Vec<(AccountId, Balance)>"%string) []); (Field (Some "finders_fee"%string) 44%N (Some "bool"%string) [])]) []).
Definition md_t681 : ty := (Ty ["pallet_tips"%string; "pallet"%string; "Error"%string] [("T"%string,None); ("I"%string,None)] (TVariant [(Variant "ReasonTooBig"%string [] 0%N ["The reason given is just too big."%string]); (Variant "AlreadyKnown"%string [] 1%N ["The tip was already found/started."%string]); (Variant "UnknownTip"%string [] 2%N ["The tip hash is unknown."%string]); (Variant "NotFinder"%string [] 3%N ["The account attempting to retract the tip is not the finder of the tip."%string]); (Variant "StillOpen"%string [] 4%N ["The tip cannot be claimed/closed because there are not enough tippers yet."%string]); (Variant "Premature"%string [] 5%N ["The tip cannot be claimed/closed because it's still in the countdown period."%string])]) ["
			Custom [dispatch errors](https://docs.substrate.io/main-docs/build/events-errors/)
			of this pallet.
			"%string]).
Definition md_t682 : ty := (Ty ["pallet_election_provider_multi_phase"%string; "ReadySolution"%string] [("AccountId"%string,None); ("MaxWinners"%string,None)] (TComposite [(Field (Some "supports"%string) 683%N (Some "BoundedSupports<AccountId, MaxWinners>"%string) []); (Field (Some "score"%string) 289%N (Some "ElectionScore"%string) []); (Field (Some "compute"%string) 456%N (Some "ElectionCompute"%string) [])]) []).
Definition md_t683 : ty := (Ty ["bounded_collections"%string; "bounded_vec"%string; "BoundedVec"%string] [("T"%string,(Some 293%N)); ("S"%string,None)] (TComposite [(Field None 292%N (Some "Vec<T>"%string) [])]) []).
Definition md_t684 : ty := (Ty ["pallet_election_provider_multi_phase"%string; "RoundSnapshot"%string] [("AccountId"%string,(Some 0%N)); ("DataProvider"%string,(Some 685%N))] (TComposite [(Field (Some "voters"%string) 686%N (Some "Vec<DataProvider>"%string) []); (Field (Some "targets"%string) 104%N (Some "Vec<AccountId>"%string) [])]) []).
Definition md_t685 : ty := (Ty [] [] (TTuple [0%N; 11%N; 542%N]) []).
Definition md_t686 : ty := (Ty [] [] (TSequence 685%N) []).
Definition md_t687 : ty := (Ty ["bounded_collections"%string; "bounded_vec"%string; "BoundedVec"%string] [("T"%string,(Some 688%N)); ("S"%string,None)] (TComposite [(Field None 689%N (Some "Vec<T>"%string) [])]) []).
Definition md_t688 : ty := (Ty [] [] (TTuple [289%N; 4%N; 4%N]) []).
Definition md_t689 : ty := (Ty [] [] (TSequence 688%N) []).
Definition md_t690 : ty := (Ty ["pallet_election_provider_multi_phase"%string; "signed"%string; "SignedSubmission"%string] [("AccountId"%string,(Some 0%N)); ("Balance"%string,(Some 6%N)); ("Solution"%string,(Some 238%N))] (TComposite [(Field (Some "who"%string) 0%N (Some "AccountId"%string) []); (Field (Some "deposit"%string) 6%N (Some "Balance"%string) []); (Field (Some "raw_solution"%string) 237%N (Some "RawSolution<Solution>"%string) []); (Field (Some "call_fee"%string) 6%N (Some "Balance"%string) [])]) []).
Definition md_t691 : ty := (Ty ["pallet_election_provider_multi_phase"%string; "pallet"%string; "Error"%string] [("T"%string,None)] (TVariant [(Variant "PreDispatchEarlySubmission"%string [] 0%N ["Submission was too early."%string]); (Variant "PreDispatchWrongWinnerCount"%string [] 1%N ["Wrong number of winners presented."%string]); (Variant "PreDispatchWeakSubmission"%string [] 2%N ["Submission was too weak, score-wise."%string]); (Variant "SignedQueueFull"%string [] 3%N ["The queue was full, and the solution was not better than any of the existing ones."%string]); (Variant "SignedCannotPayDeposit"%string [] 4%N ["The origin failed to pay the deposit."%string]); (Variant "SignedInvalidWitness"%string [] 5%N ["Witness data to dispatchable is invalid."%string]); (Variant "SignedTooMuchWeight"%string [] 6%N ["The signed submission consumes too much weight"%string]); (Variant "OcwCallWrongEra"%string [] 7%N ["OCW submitted solution for wrong round"%string]); (Variant "MissingSnapshotMetadata"%string [] 8%N ["Snapshot metadata should exist but didn't."%string]); (Variant "InvalidSubmissionIndex"%string [] 9%N ["`Self::insert_submission` returned an invalid index."%string]); (Variant "CallNotAllowed"%string [] 10%N ["The call is not allowed at this point."%string]); (Variant "FallbackFailed"%string [] 11%N ["The fallback failed"%string]); (Variant "BoundNotMet"%string [] 12%N ["Some bound not met"%string]); (Variant "TooManyWinners"%string [] 13%N ["Submitted solution has too many winners"%string])]) ["Error of the pallet that can be returned in response to dispatches."%string]).
Definition md_t692 : ty := (Ty ["pallet_bags_list"%string; "list"%string; "Node"%string] [("T"%string,None); ("I"%string,None)] (TComposite [(Field (Some "id"%string) 0%N (Some "T::AccountId"%string) []); (Field (Some "prev"%string) 144%N (Some "Option<T::AccountId>"%string) []); (Field (Some "next"%string) 144%N (Some "Option<T::AccountId>"%string) []); (Field (Some "bag_upper"%string) 11%N (Some "T::Score"%string) []); (Field (Some "score"%string) 11%N (Some "T::Score"%string) [])]) []).
Definition md_t693 : ty := (Ty ["pallet_bags_list"%string; "list"%string; "Bag"%string] [("T"%string,None); ("I"%string,None)] (TComposite [(Field (Some "head"%string) 144%N (Some "Option<T::AccountId>"%string) []); (Field (Some "tail"%string) 144%N (Some "Option<T::AccountId>"%string) [])]) []).
Definition md_t694 : ty := (Ty [] [] (TSequence 11%N) []).
Definition md_t695 : ty := (Ty ["pallet_bags_list"%string; "pallet"%string; "Error"%string] [("T"%string,None); ("I"%string,None)] (TVariant [(Variant "List"%string [(Field None 696%N (Some "ListError"%string) [])] 0%N ["A error in the list interface implementation."%string])]) ["
			Custom [dispatch errors](https://docs.substrate.io/main-docs/build/events-errors/)
			of this pallet.
			"%string]).
Definition md_t696 : ty := (Ty ["pallet_bags_list"%string; "list"%string; "ListError"%string] [] (TVariant [(Variant "Duplicate"%string [] 0%N []); (Variant "NotHeavier"%string [] 1%N []); (Variant "NotInSameBag"%string [] 2%N []); (Variant "NodeNotFound"%string [] 3%N [])]) []).
Definition md_t697 : ty := (Ty ["pallet_nomination_pools"%string; "PoolMember"%string] [("T"%string,None)] (TComposite [(Field (Some "pool_id"%string) 4%N (Some "PoolId"%string) []); (Field (Some "points"%string) 6%N (Some "BalanceOf<T>"%string) []); (Field (Some "last_recorded_reward_counter"%string) 534%N (Some "T::RewardCounter"%string) []); (Field (Some "unbonding_eras"%string) 698%N (Some "BoundedBTreeMap<EraIndex, BalanceOf<T>, T::MaxUnbonding>"%string) [])]) []).
Definition md_t698 : ty := (Ty ["bounded_collections"%string; "bounded_btree_map"%string; "BoundedBTreeMap"%string] [("K"%string,(Some 4%N)); ("V"%string,(Some 6%N)); ("S"%string,None)] (TComposite [(Field None 699%N (Some "BTreeMap<K, V>"%string) [])]) []).
Definition md_t699 : ty := (Ty ["BTreeMap"%string] [("K"%string,(Some 4%N)); ("V"%string,(Some 6%N))] (TComposite [(Field None 634%N None [])]) []).
Definition md_t700 : ty := (Ty ["pallet_nomination_pools"%string; "BondedPoolInner"%string] [("T"%string,None)] (TComposite [(Field (Some "commission"%string) 701%N (Some "Commission<T>"%string) []); (Field (Some "member_counter"%string) 4%N (Some "u32"%string) []); (Field (Some "points"%string) 6%N (Some "BalanceOf<T>"%string) []); (Field (Some "roles"%string) 704%N (Some "PoolRoles<T::AccountId>"%string) []); (Field (Some "state"%string) 298%N (Some "PoolState"%string) [])]) []).
Definition md_t701 : ty := (Ty ["pallet_nomination_pools"%string; "Commission"%string] [("T"%string,None)] (TComposite [(Field (Some "current"%string) 304%N (Some "Option<(Perbill, T::AccountId)>"%string) []); (Field (Some "max"%string) 702%N (Some "Option<Perbill>"%string) []); (Field (Some "change_rate"%string) 703%N (Some "Option<CommissionChangeRate<T::BlockNumber>>"%string) []); (Field (Some "throttle_from"%string) 141%N (Some "Option<T::BlockNumber>"%string) [])]) []).
Definition md_t702 : ty := (Ty ["Option"%string] [("T"%string,(Some 41%N))] (TVariant [(Variant "None"%string [] 0%N []); (Variant "Some"%string [(Field None 41%N None [])] 1%N [])]) []).
Definition md_t703 : ty := (Ty ["Option"%string] [("T"%string,(Some 306%N))] (TVariant [(Variant "None"%string [] 0%N []); (Variant "Some"%string [(Field None 306%N None [])] 1%N [])]) []).
Definition md_t704 : ty := (Ty ["pallet_nomination_pools"%string; "PoolRoles"%string] [("AccountId"%string,(Some 0%N))] (TComposite [(Field (Some "depositor"%string) 0%N (Some "AccountId"%string) []); (Field (Some "root"%string) 144%N (Some "Option<AccountId>"%string) []); (Field (Some "nominator"%string) 144%N (Some "Option<AccountId>"%string) []); (Field (Some "bouncer"%string) 144%N (Some "Option<AccountId>"%string) [])]) []).
Definition md_t705 : ty := (Ty ["pallet_nomination_pools"%string; "RewardPool"%string] [("T"%string,None)] (TComposite [(Field (Some "last_recorded_reward_counter"%string) 534%N (Some "T::RewardCounter"%string) []); (Field (Some "last_recorded_total_payouts"%string) 6%N (Some "BalanceOf<T>"%string) []); (Field (Some "total_rewards_claimed"%string) 6%N (Some "BalanceOf<T>"%string) []); (Field (Some "total_commission_pending"%string) 6%N (Some "BalanceOf<T>"%string) []); (Field (Some "total_commission_claimed"%string) 6%N (Some "BalanceOf<T>"%string) [])]) []).
Definition md_t706 : ty := (Ty ["pallet_nomination_pools"%string; "SubPools"%string] [("T"%string,None)] (TComposite [(Field (Some "no_era"%string) 707%N (Some "UnbondPool<T>"%string) []); (Field (Some "with_era"%string) 708%N (Some "BoundedBTreeMap<EraIndex, UnbondPool<T>, TotalUnbondingPools<T>>"%string) [])]) []).
Definition md_t707 : ty := (Ty ["pallet_nomination_pools"%string; "UnbondPool"%string] [("T"%string,None)] (TComposite [(Field (Some "points"%string) 6%N (Some "BalanceOf<T>"%string) []); (Field (Some "balance"%string) 6%N (Some "BalanceOf<T>"%string) [])]) []).
Definition md_t708 : ty := (Ty ["bounded_collections"%string; "bounded_btree_map"%string; "BoundedBTreeMap"%string] [("K"%string,(Some 4%N)); ("V"%string,(Some 707%N)); ("S"%string,None)] (TComposite [(Field None 709%N (Some "BTreeMap<K, V>"%string) [])]) []).
Definition md_t709 : ty := (Ty ["BTreeMap"%string] [("K"%string,(Some 4%N)); ("V"%string,(Some 707%N))] (TComposite [(Field None 710%N None [])]) []).
Definition md_t710 : ty := (Ty [] [] (TSequence 711%N) []).
Definition md_t711 : ty := (Ty [] [] (TTuple [4%N; 707%N]) []).
Definition md_t712 : ty := (Ty ["bounded_collections"%string; "bounded_vec"%string; "BoundedVec"%string] [("T"%string,(Some 2%N)); ("S"%string,None)] (TComposite [(Field None 13%N (Some "Vec<T>"%string) [])]) []).
Definition md_t713 : ty := (Ty ["pallet_nomination_pools"%string; "pallet"%string; "Error"%string] [("T"%string,None)] (TVariant [(Variant "PoolNotFound"%string [] 0%N ["A (bonded) pool id does not exist."%string]); (Variant "PoolMemberNotFound"%string [] 1%N ["An account is not a member."%string]); (Variant "RewardPoolNotFound"%string [] 2%N ["A reward pool does not exist. In all cases this is a system logic error."%string]); (Variant "SubPoolsNotFound"%string [] 3%N ["A sub pool does not exist."%string]); (Variant "AccountBelongsToOtherPool"%string [] 4%N ["An account is already delegating in another pool. An account may only belong to one"%string; "pool at a time."%string]); (Variant "FullyUnbonding"%string [] 5%N ["The member is fully unbonded (and thus cannot access the bonded and reward pool"%string; "anymore to, for example, collect rewards)."%string]); (Variant "MaxUnbondingLimit"%string [] 6%N ["The member cannot unbond further chunks due to reaching the limit."%string]); (Variant "CannotWithdrawAny"%string [] 7%N ["None of the funds can be withdrawn yet because the bonding duration has not passed."%string]); (Variant "MinimumBondNotMet"%string [] 8%N ["The amount does not meet the minimum bond to either join or create a pool."%string; ""%string; "The depositor can never unbond to a value less than"%string; "`Pallet::depositor_min_bond`. The caller does not have nominating"%string; "permissions for the pool. Members can never unbond to a value below `MinJoinBond`."%string]); (Variant "OverflowRisk"%string [] 9%N ["The transaction could not be executed due to overflow risk for the pool."%string]); (Variant "NotDestroying"%string [] 10%N ["A pool must be in [`PoolState::Destroying`] in order for the depositor to unbond or for"%string; "other members to be permissionlessly unbonded."%string]); (Variant "NotNominator"%string [] 11%N ["The caller does not have nominating permissions for the pool."%string]); (Variant "NotKickerOrDestroying"%string [] 12%N ["Either a) the caller cannot make a valid kick or b) the pool is not destroying."%string]); (Variant "NotOpen"%string [] 13%N ["The pool is not open to join"%string]); (Variant "MaxPools"%string [] 14%N ["The system is maxed out on pools."%string]); (Variant "MaxPoolMembers"%string [] 15%N ["Too many members in the pool or system."%string]); (Variant "CanNotChangeState"%string [] 16%N ["The pools state cannot be changed."%string]); (Variant "DoesNotHavePermission"%string [] 17%N ["The caller does not have adequate permissions."%string]); (Variant "MetadataExceedsMaxLen"%string [] 18%N ["Metadata exceeds [`Config::MaxMetadataLen`]"%string]); (Variant "Defensive"%string [(Field None 714%N (Some "DefensiveError"%string) [])] 19%N ["Some error occurred that should never happen. This should be reported to the"%string; "maintainers."%string]); (Variant "PartialUnbondNotAllowedPermissionlessly"%string [] 20%N ["Partial unbonding now allowed permissionlessly."%string]); (Variant "MaxCommissionRestricted"%string [] 21%N ["The pool's max commission cannot be set higher than the existing value."%string]); (Variant "CommissionExceedsMaximum"%string [] 22%N ["The supplied commission exceeds the max allowed commission."%string]); (Variant "CommissionChangeThrottled"%string [] 23%N ["Not enough blocks have surpassed since the last commission update."%string]); (Variant "CommissionChangeRateNotAllowed"%string [] 24%N ["The submitted changes to commission change rate are not allowed."%string]); (Variant "NoPendingCommission"%string [] 25%N ["There is no pending commission to claim."%string]); (Variant "NoCommissionCurrentSet"%string [] 26%N ["No commission current has been set."%string]); (Variant "PoolIdInUse"%string [] 27%N ["Pool id currently in use."%string]); (Variant "InvalidPoolId"%string [] 28%N ["Pool id provided is not correct/usable."%string]); (Variant "BondExtraRestricted"%string [] 29%N ["Bonding extra is restricted to the exact pending reward amount."%string])]) ["
			Custom [dispatch errors](https://docs.substrate.io/main-docs/build/events-errors/)
			of this pallet.
			"%string]).
Definition md_t714 : ty := (Ty ["pallet_nomination_pools"%string; "pallet"%string; "DefensiveError"%string] [] (TVariant [(Variant "NotEnoughSpaceInUnbondPool"%string [] 0%N []); (Variant "PoolNotFound"%string [] 1%N []); (Variant "RewardPoolNotFound"%string [] 2%N []); (Variant "SubPoolsNotFound"%string [] 3%N []); (Variant "BondedStashKilledPrematurely"%string [] 4%N [])]) []).
Definition md_t715 : ty := (Ty ["pallet_fast_unstake"%string; "types"%string; "UnstakeRequest"%string] [("T"%string,None)] (TComposite [(Field (Some "stashes"%string) 716%N (Some "BoundedVec<(T::AccountId, BalanceOf<T>), T::BatchSize>"%string) []); (Field (Some "checked"%string) 717%N (Some "BoundedVec<EraIndex, MaxChecking<T>>"%string) [])]) []).
Definition md_t716 : ty := (Ty ["bounded_collections"%string; "bounded_vec"%string; "BoundedVec"%string] [("T"%string,(Some 72%N)); ("S"%string,None)] (TComposite [(Field None 71%N (Some "Vec<T>"%string) [])]) []).
Definition md_t717 : ty := (Ty ["bounded_collections"%string; "bounded_vec"%string; "BoundedVec"%string] [("T"%string,(Some 4%N)); ("S"%string,None)] (TComposite [(Field None 109%N (Some "Vec<T>"%string) [])]) []).
Definition md_t718 : ty := (Ty ["pallet_fast_unstake"%string; "pallet"%string; "Error"%string] [("T"%string,None)] (TVariant [(Variant "NotController"%string [] 0%N ["The provided Controller account was not found."%string; ""%string; "This means that the given account is not bonded."%string]); (Variant "AlreadyQueued"%string [] 1%N ["The bonded account has already been queued."%string]); (Variant "NotFullyBonded"%string [] 2%N ["The bonded account has active unlocking chunks."%string]); (Variant "NotQueued"%string [] 3%N ["The provided un-staker is not in the `Queue`."%string]); (Variant "AlreadyHead"%string [] 4%N ["The provided un-staker is already in Head, and cannot deregister."%string]); (Variant "CallNotAllowed"%string [] 5%N ["The call is not allowed at this point because the pallet is not active."%string])]) ["
			Custom [dispatch errors](https://docs.substrate.io/main-docs/build/events-errors/)
			of this pallet.
			"%string]).
Definition md_t719 : ty := (Ty ["polkadot_runtime_parachains"%string; "configuration"%string; "HostConfiguration"%string] [("BlockNumber"%string,(Some 4%N))] (TComposite [(Field (Some "max_code_size"%string) 4%N (Some "u32"%string) []); (Field (Some "max_head_data_size"%string) 4%N (Some "u32"%string) []); (Field (Some "max_upward_queue_count"%string) 4%N (Some "u32"%string) []); (Field (Some "max_upward_queue_size"%string) 4%N (Some "u32"%string) []); (Field (Some "max_upward_message_size"%string) 4%N (Some "u32"%string) []); (Field (Some "max_upward_message_num_per_candidate"%string) 4%N (Some "u32"%string) []); (Field (Some "hrmp_max_message_num_per_candidate"%string) 4%N (Some "u32"%string) []); (Field (Some "validation_upgrade_cooldown"%string) 4%N (Some "BlockNumber"%string) []); (Field (Some "validation_upgrade_delay"%string) 4%N (Some "BlockNumber"%string) []); (Field (Some "async_backing_params"%string) 309%N (Some "AsyncBackingParams"%string) []); (Field (Some "max_pov_size"%string) 4%N (Some "u32"%string) []); (Field (Some "max_downward_message_size"%string) 4%N (Some "u32"%string) []); (Field (Some "hrmp_max_parachain_outbound_channels"%string) 4%N (Some "u32"%string) []); (Field (Some "hrmp_max_parathread_outbound_channels"%string) 4%N (Some "u32"%string) []); (Field (Some "hrmp_sender_deposit"%string) 6%N (Some "Balance"%string) []); (Field (Some "hrmp_recipient_deposit"%string) 6%N (Some "Balance"%string) []); (Field (Some "hrmp_channel_max_capacity"%string) 4%N (Some "u32"%string) []); (Field (Some "hrmp_channel_max_total_size"%string) 4%N (Some "u32"%string) []); (Field (Some "hrmp_max_parachain_inbound_channels"%string) 4%N (Some "u32"%string) []); (Field (Some "hrmp_max_parathread_inbound_channels"%string) 4%N (Some "u32"%string) []); (Field (Some "hrmp_channel_max_message_size"%string) 4%N (Some "u32"%string) []); (Field (Some "executor_params"%string) 310%N (Some "ExecutorParams"%string) []); (Field (Some "code_retention_period"%string) 4%N (Some "BlockNumber"%string) []); (Field (Some "parathread_cores"%string) 4%N (Some "u32"%string) []); (Field (Some "parathread_retries"%string) 4%N (Some "u32"%string) []); (Field (Some "group_rotation_frequency"%string) 4%N (Some "BlockNumber"%string) []); (Field (Some "chain_availability_period"%string) 4%N (Some "BlockNumber"%string) []); (Field (Some "thread_availability_period"%string) 4%N (Some "BlockNumber"%string) []); (Field (Some "scheduling_lookahead"%string) 4%N (Some "u32"%string) []); (Field (Some "max_validators_per_core"%string) 141%N (Some "Option<u32>"%string) []); (Field (Some "max_validators"%string) 141%N (Some "Option<u32>"%string) []); (Field (Some "dispute_period"%string) 4%N (Some "SessionIndex"%string) []); (Field (Some "dispute_post_conclusion_acceptance_period"%string) 4%N (Some "BlockNumber"%string) []); (Field (Some "no_show_slots"%string) 4%N (Some "u32"%string) []); (Field (Some "n_delay_tranches"%string) 4%N (Some "u32"%string) []); (Field (Some "zeroth_delay_tranche_width"%string) 4%N (Some "u32"%string) []); (Field (Some "needed_approvals"%string) 4%N (Some "u32"%string) []); (Field (Some "relay_vrf_modulo_samples"%string) 4%N (Some "u32"%string) []); (Field (Some "pvf_checking_enabled"%string) 44%N (Some "bool"%string) []); (Field (Some "pvf_voting_ttl"%string) 4%N (Some "SessionIndex"%string) []); (Field (Some "minimum_validation_upgrade_delay"%string) 4%N (Some "BlockNumber"%string) [])]) []).
Definition md_t720 : ty := (Ty [] [] (TSequence 721%N) []).
Definition md_t721 : ty := (Ty [] [] (TTuple [4%N; 719%N]) []).
Definition md_t722 : ty := (Ty ["polkadot_runtime_parachains"%string; "configuration"%string; "pallet"%string; "Error"%string] [("T"%string,None)] (TVariant [(Variant "InvalidNewValue"%string [] 0%N ["The new value for a configuration parameter is invalid."%string])]) ["
			Custom [dispatch errors](https://docs.substrate.io/main-docs/build/events-errors/)
			of this pallet.
			"%string]).
Definition md_t723 : ty := (Ty [] [] (TSequence 324%N) []).
Definition md_t724 : ty := (Ty [] [] (TSequence 116%N) []).
Definition md_t725 : ty := (Ty ["polkadot_runtime_parachains"%string; "inclusion"%string; "AvailabilityBitfieldRecord"%string] [("N"%string,(Some 4%N))] (TComposite [(Field (Some "bitfield"%string) 321%N (Some "AvailabilityBitfield"%string) []); (Field (Some "submitted_at"%string) 4%N (Some "N"%string) [])]) []).
Definition md_t726 : ty := (Ty ["polkadot_runtime_parachains"%string; "inclusion"%string; "CandidatePendingAvailability"%string] [("H"%string,(Some 12%N)); ("N"%string,(Some 4%N))] (TComposite [(Field (Some "core"%string) 464%N (Some "CoreIndex"%string) []); (Field (Some "hash"%string) 345%N (Some "CandidateHash"%string) []); (Field (Some "descriptor"%string) 329%N (Some "CandidateDescriptor<H>"%string) []); (Field (Some "availability_votes"%string) 322%N (Some "BitVec<u8, BitOrderLsb0>"%string) []); (Field (Some "backers"%string) 322%N (Some "BitVec<u8, BitOrderLsb0>"%string) []); (Field (Some "relay_parent_number"%string) 4%N (Some "N"%string) []); (Field (Some "backed_in_number"%string) 4%N (Some "N"%string) []); (Field (Some "backing_group"%string) 465%N (Some "GroupIndex"%string) [])]) []).
Definition md_t727 : ty := (Ty ["polkadot_runtime_parachains"%string; "inclusion"%string; "pallet"%string; "Error"%string] [("T"%string,None)] (TVariant [(Variant "UnsortedOrDuplicateValidatorIndices"%string [] 0%N ["Validator indices are out of order or contains duplicates."%string]); (Variant "UnsortedOrDuplicateDisputeStatementSet"%string [] 1%N ["Dispute statement sets are out of order or contain duplicates."%string]); (Variant "UnsortedOrDuplicateBackedCandidates"%string [] 2%N ["Backed candidates are out of order (core index) or contain duplicates."%string]); (Variant "UnexpectedRelayParent"%string [] 3%N ["A different relay parent was provided compared to the on-chain stored one."%string]); (Variant "WrongBitfieldSize"%string [] 4%N ["Availability bitfield has unexpected size."%string]); (Variant "BitfieldAllZeros"%string [] 5%N ["Bitfield consists of zeros only."%string]); (Variant "BitfieldDuplicateOrUnordered"%string [] 6%N ["Multiple bitfields submitted by same validator or validators out of order by index."%string]); (Variant "ValidatorIndexOutOfBounds"%string [] 7%N ["Validator index out of bounds."%string]); (Variant "InvalidBitfieldSignature"%string [] 8%N ["Invalid signature"%string]); (Variant "UnscheduledCandidate"%string [] 9%N ["Candidate submitted but para not scheduled."%string]); (Variant "CandidateScheduledBeforeParaFree"%string [] 10%N ["Candidate scheduled despite pending candidate already existing for the para."%string]); (Variant "WrongCollator"%string [] 11%N ["Candidate included with the wrong collator."%string]); (Variant "ScheduledOutOfOrder"%string [] 12%N ["Scheduled cores out of order."%string]); (Variant "HeadDataTooLarge"%string [] 13%N ["Head data exceeds the configured maximum."%string]); (Variant "PrematureCodeUpgrade"%string [] 14%N ["Code upgrade prematurely."%string]); (Variant "NewCodeTooLarge"%string [] 15%N ["Output code is too large"%string]); (Variant "CandidateNotInParentContext"%string [] 16%N ["Candidate not in parent context."%string]); (Variant "InvalidGroupIndex"%string [] 17%N ["Invalid group index in core assignment."%string]); (Variant "InsufficientBacking"%string [] 18%N ["Insufficient (non-majority) backing."%string]); (Variant "InvalidBacking"%string [] 19%N ["Invalid (bad signature, unknown validator, etc.) backing."%string]); (Variant "NotCollatorSigned"%string [] 20%N ["Collator did not sign PoV."%string]); (Variant "ValidationDataHashMismatch"%string [] 21%N ["The validation data hash does not match expected."%string]); (Variant "IncorrectDownwardMessageHandling"%string [] 22%N ["The downward message queue is not processed correctly."%string]); (Variant "InvalidUpwardMessages"%string [] 23%N ["At least one upward message sent does not pass the acceptance criteria."%string]); (Variant "HrmpWatermarkMishandling"%string [] 24%N ["The candidate didn't follow the rules of HRMP watermark advancement."%string]); (Variant "InvalidOutboundHrmp"%string [] 25%N ["The HRMP messages sent by the candidate is not valid."%string]); (Variant "InvalidValidationCodeHash"%string [] 26%N ["The validation code hash of the candidate is not valid."%string]); (Variant "ParaHeadMismatch"%string [] 27%N ["The `para_head` hash in the candidate descriptor doesn't match the hash of the actual para head in the"%string; "commitments."%string]); (Variant "BitfieldReferencesFreedCore"%string [] 28%N ["A bitfield that references a freed core,"%string; "either intentionally or as part of a concluded"%string; "invalid dispute."%string])]) ["
			Custom [dispatch errors](https://docs.substrate.io/main-docs/build/events-errors/)
			of this pallet.
			"%string]).
Definition md_t728 : ty := (Ty ["polkadot_primitives"%string; "v4"%string; "ScrapedOnChainVotes"%string] [("H"%string,(Some 12%N))] (TComposite [(Field (Some "session"%string) 4%N (Some "SessionIndex"%string) []); (Field (Some "backing_validators_per_candidate"%string) 729%N (Some "Vec<(CandidateReceipt<H>, Vec<(ValidatorIndex, ValidityAttestation)>)
>"%string) []); (Field (Some "disputes"%string) 343%N (Some "MultiDisputeStatementSet"%string) [])]) []).
Definition md_t729 : ty := (Ty [] [] (TSequence 730%N) []).
Definition md_t730 : ty := (Ty [] [] (TTuple [463%N; 731%N]) []).
Definition md_t731 : ty := (Ty [] [] (TSequence 732%N) []).
Definition md_t732 : ty := (Ty [] [] (TTuple [324%N; 342%N]) []).
Definition md_t733 : ty := (Ty ["polkadot_runtime_parachains"%string; "paras_inherent"%string; "pallet"%string; "Error"%string] [("T"%string,None)] (TVariant [(Variant "TooManyInclusionInherents"%string [] 0%N ["Inclusion inherent called more than once per block."%string]); (Variant "InvalidParentHeader"%string [] 1%N ["The hash of the submitted parent header doesn't correspond to the saved block hash of"%string; "the parent."%string]); (Variant "CandidateConcludedInvalid"%string [] 2%N ["Disputed candidate that was concluded invalid."%string]); (Variant "InherentOverweight"%string [] 3%N ["The data given to the inherent will result in an overweight block."%string]); (Variant "DisputeStatementsUnsortedOrDuplicates"%string [] 4%N ["The ordering of dispute statements was invalid."%string]); (Variant "DisputeInvalid"%string [] 5%N ["A dispute statement was invalid."%string])]) ["
			Custom [dispatch errors](https://docs.substrate.io/main-docs/build/events-errors/)
			of this pallet.
			"%string]).
Definition md_t734 : ty := (Ty [] [] (TSequence 723%N) []).
Definition md_t735 : ty := (Ty ["polkadot_runtime_parachains"%string; "scheduler"%string; "ParathreadClaimQueue"%string] [] (TComposite [(Field (Some "queue"%string) 736%N (Some "Vec<QueuedParathread>"%string) []); (Field (Some "next_core_offset"%string) 4%N (Some "u32"%string) [])]) []).
Definition md_t736 : ty := (Ty [] [] (TSequence 737%N) []).
Definition md_t737 : ty := (Ty ["polkadot_runtime_parachains"%string; "scheduler"%string; "QueuedParathread"%string] [] (TComposite [(Field (Some "claim"%string) 738%N (Some "ParathreadEntry"%string) []); (Field (Some "core_offset"%string) 4%N (Some "u32"%string) [])]) []).
Definition md_t738 : ty := (Ty ["polkadot_primitives"%string; "v4"%string; "ParathreadEntry"%string] [] (TComposite [(Field (Some "claim"%string) 739%N (Some "ParathreadClaim"%string) []); (Field (Some "retries"%string) 4%N (Some "u32"%string) [])]) []).
Definition md_t739 : ty := (Ty ["polkadot_primitives"%string; "v4"%string; "ParathreadClaim"%string] [] (TComposite [(Field None 162%N (Some "Id"%string) []); (Field None 330%N (Some "CollatorId"%string) [])]) []).
Definition md_t740 : ty := (Ty [] [] (TSequence 741%N) []).
Definition md_t741 : ty := (Ty ["Option"%string] [("T"%string,(Some 742%N))] (TVariant [(Variant "None"%string [] 0%N []); (Variant "Some"%string [(Field None 742%N None [])] 1%N [])]) []).
Definition md_t742 : ty := (Ty ["polkadot_primitives"%string; "v4"%string; "CoreOccupied"%string] [] (TVariant [(Variant "Parathread"%string [(Field None 738%N (Some "ParathreadEntry"%string) [])] 0%N []); (Variant "Parachain"%string [] 1%N [])]) []).
Definition md_t743 : ty := (Ty [] [] (TSequence 162%N) []).
Definition md_t744 : ty := (Ty [] [] (TSequence 745%N) []).
Definition md_t745 : ty := (Ty ["polkadot_runtime_parachains"%string; "scheduler"%string; "CoreAssignment"%string] [] (TComposite [(Field (Some "core"%string) 464%N (Some "CoreIndex"%string) []); (Field (Some "para_id"%string) 162%N (Some "ParaId"%string) []); (Field (Some "kind"%string) 746%N (Some "AssignmentKind"%string) []); (Field (Some "group_idx"%string) 465%N (Some "GroupIndex"%string) [])]) []).
Definition md_t746 : ty := (Ty ["polkadot_runtime_parachains"%string; "scheduler"%string; "AssignmentKind"%string] [] (TVariant [(Variant "Parachain"%string [] 0%N []); (Variant "Parathread"%string [(Field None 330%N (Some "CollatorId"%string) []); (Field None 4%N (Some "u32"%string) [])] 1%N [])]) []).
Definition md_t747 : ty := (Ty ["polkadot_runtime_parachains"%string; "paras"%string; "PvfCheckActiveVoteState"%string] [("BlockNumber"%string,(Some 4%N))] (TComposite [(Field (Some "votes_accept"%string) 322%N (Some "BitVec<u8, BitOrderLsb0>"%string) []); (Field (Some "votes_reject"%string) 322%N (Some "BitVec<u8, BitOrderLsb0>"%string) []); (Field (Some "age"%string) 4%N (Some "SessionIndex"%string) []); (Field (Some "created_at"%string) 4%N (Some "BlockNumber"%string) []); (Field (Some "causes"%string) 748%N (Some "Vec<PvfCheckCause<BlockNumber>>"%string) [])]) []).
Definition md_t748 : ty := (Ty [] [] (TSequence 749%N) []).
Definition md_t749 : ty := (Ty ["polkadot_runtime_parachains"%string; "paras"%string; "PvfCheckCause"%string] [("BlockNumber"%string,(Some 4%N))] (TVariant [(Variant "Onboarding"%string [(Field None 162%N (Some "ParaId"%string) [])] 0%N []); (Variant "Upgrade"%string [(Field (Some "id"%string) 162%N (Some "ParaId"%string) []); (Field (Some "relay_parent_number"%string) 4%N (Some "BlockNumber"%string) [])] 1%N [])]) []).
Definition md_t750 : ty := (Ty [] [] (TSequence 332%N) []).
Definition md_t751 : ty := (Ty ["polkadot_runtime_parachains"%string; "paras"%string; "ParaLifecycle"%string] [] (TVariant [(Variant "Onboarding"%string [] 0%N []); (Variant "Parathread"%string [] 1%N []); (Variant "Parachain"%string [] 2%N []); (Variant "UpgradingParathread"%string [] 3%N []); (Variant "DowngradingParachain"%string [] 4%N []); (Variant "OffboardingParathread"%string [] 5%N []); (Variant "OffboardingParachain"%string [] 6%N [])]) []).
Definition md_t752 : ty := (Ty [] [] (TTuple [162%N; 4%N]) []).
Definition md_t753 : ty := (Ty ["polkadot_runtime_parachains"%string; "paras"%string; "ParaPastCodeMeta"%string] [("N"%string,(Some 4%N))] (TComposite [(Field (Some "upgrade_times"%string) 754%N (Some "Vec<ReplacementTimes<N>>"%string) []); (Field (Some "last_pruned"%string) 141%N (Some "Option<N>"%string) [])]) []).
Definition md_t754 : ty := (Ty [] [] (TSequence 755%N) []).
Definition md_t755 : ty := (Ty ["polkadot_runtime_parachains"%string; "paras"%string; "ReplacementTimes"%string] [("N"%string,(Some 4%N))] (TComposite [(Field (Some "expected_at"%string) 4%N (Some "N"%string) []); (Field (Some "activated_at"%string) 4%N (Some "N"%string) [])]) []).
Definition md_t756 : ty := (Ty [] [] (TSequence 752%N) []).
Definition md_t757 : ty := (Ty ["polkadot_primitives"%string; "v4"%string; "UpgradeGoAhead"%string] [] (TVariant [(Variant "Abort"%string [] 0%N []); (Variant "GoAhead"%string [] 1%N [])]) []).
Definition md_t758 : ty := (Ty ["polkadot_primitives"%string; "v4"%string; "UpgradeRestriction"%string] [] (TVariant [(Variant "Present"%string [] 0%N [])]) []).
Definition md_t759 : ty := (Ty ["polkadot_runtime_parachains"%string; "paras"%string; "ParaGenesisArgs"%string] [] (TComposite [(Field (Some "genesis_head"%string) 340%N (Some "HeadData"%string) []); (Field (Some "validation_code"%string) 339%N (Some "ValidationCode"%string) []); (Field (Some "para_kind"%string) 44%N (Some "ParaKind"%string) [])]) []).
Definition md_t760 : ty := (Ty ["polkadot_runtime_parachains"%string; "paras"%string; "pallet"%string; "Error"%string] [("T"%string,None)] (TVariant [(Variant "NotRegistered"%string [] 0%N ["Para is not registered in our system."%string]); (Variant "CannotOnboard"%string [] 1%N ["Para cannot be onboarded because it is already tracked by our system."%string]); (Variant "CannotOffboard"%string [] 2%N ["Para cannot be offboarded at this time."%string]); (Variant "CannotUpgrade"%string [] 3%N ["Para cannot be upgraded to a parachain."%string]); (Variant "CannotDowngrade"%string [] 4%N ["Para cannot be downgraded to a parathread."%string]); (Variant "PvfCheckStatementStale"%string [] 5%N ["The statement for PVF pre-checking is stale."%string]); (Variant "PvfCheckStatementFuture"%string [] 6%N ["The statement for PVF pre-checking is for a future session."%string]); (Variant "PvfCheckValidatorIndexOutOfBounds"%string [] 7%N ["Claimed validator index is out of bounds."%string]); (Variant "PvfCheckInvalidSignature"%string [] 8%N ["The signature for the PVF pre-checking is invalid."%string]); (Variant "PvfCheckDoubleVote"%string [] 9%N ["The given validator already has cast a vote."%string]); (Variant "PvfCheckSubjectInvalid"%string [] 10%N ["The given PVF does not exist at the moment of process a vote."%string]); (Variant "CannotUpgradeCode"%string [] 11%N ["Parachain cannot currently schedule a code upgrade."%string])]) ["
			Custom [dispatch errors](https://docs.substrate.io/main-docs/build/events-errors/)
			of this pallet.
			"%string]).
Definition md_t761 : ty := (Ty [] [] (TSequence 762%N) []).
Definition md_t762 : ty := (Ty ["polkadot_runtime_parachains"%string; "initializer"%string; "BufferedSessionChange"%string] [] (TComposite [(Field (Some "validators"%string) 724%N (Some "Vec<ValidatorId>"%string) []); (Field (Some "queued"%string) 724%N (Some "Vec<ValidatorId>"%string) []); (Field (Some "session_index"%string) 4%N (Some "SessionIndex"%string) [])]) []).
Definition md_t763 : ty := (Ty [] [] (TSequence 764%N) []).
Definition md_t764 : ty := (Ty ["polkadot_core_primitives"%string; "InboundDownwardMessage"%string] [("BlockNumber"%string,(Some 4%N))] (TComposite [(Field (Some "sent_at"%string) 4%N (Some "BlockNumber"%string) []); (Field (Some "msg"%string) 13%N (Some "DownwardMessage"%string) [])]) []).
Definition md_t765 : ty := (Ty ["polkadot_runtime_parachains"%string; "hrmp"%string; "HrmpOpenChannelRequest"%string] [] (TComposite [(Field (Some "confirmed"%string) 44%N (Some "bool"%string) []); (Field (Some "_age"%string) 4%N (Some "SessionIndex"%string) []); (Field (Some "sender_deposit"%string) 6%N (Some "Balance"%string) []); (Field (Some "max_message_size"%string) 4%N (Some "u32"%string) []); (Field (Some "max_capacity"%string) 4%N (Some "u32"%string) []); (Field (Some "max_total_size"%string) 4%N (Some "u32"%string) [])]) []).
Definition md_t766 : ty := (Ty [] [] (TSequence 355%N) []).
Definition md_t767 : ty := (Ty ["polkadot_runtime_parachains"%string; "hrmp"%string; "HrmpChannel"%string] [] (TComposite [(Field (Some "max_capacity"%string) 4%N (Some "u32"%string) []); (Field (Some "max_total_size"%string) 4%N (Some "u32"%string) []); (Field (Some "max_message_size"%string) 4%N (Some "u32"%string) []); (Field (Some "msg_count"%string) 4%N (Some "u32"%string) []); (Field (Some "total_size"%string) 4%N (Some "u32"%string) []); (Field (Some "mqc_head"%string) 142%N (Some "Option<Hash>"%string) []); (Field (Some "sender_deposit"%string) 6%N (Some "Balance"%string) []); (Field (Some "recipient_deposit"%string) 6%N (Some "Balance"%string) [])]) []).
Definition md_t768 : ty := (Ty [] [] (TSequence 769%N) []).
Definition md_t769 : ty := (Ty ["polkadot_core_primitives"%string; "InboundHrmpMessage"%string] [("BlockNumber"%string,(Some 4%N))] (TComposite [(Field (Some "sent_at"%string) 4%N (Some "BlockNumber"%string) []); (Field (Some "data"%string) 13%N (Some "sp_std::vec::Vec<u8>"%string) [])]) []).
Definition md_t770 : ty := (Ty [] [] (TSequence 771%N) []).
Definition md_t771 : ty := (Ty [] [] (TTuple [4%N; 743%N]) []).
Definition md_t772 : ty := (Ty ["polkadot_runtime_parachains"%string; "hrmp"%string; "pallet"%string; "Error"%string] [("T"%string,None)] (TVariant [(Variant "OpenHrmpChannelToSelf"%string [] 0%N ["The sender tried to open a channel to themselves."%string]); (Variant "OpenHrmpChannelInvalidRecipient"%string [] 1%N ["The recipient is not a valid para."%string]); (Variant "OpenHrmpChannelZeroCapacity"%string [] 2%N ["The requested capacity is zero."%string]); (Variant "OpenHrmpChannelCapacityExceedsLimit"%string [] 3%N ["The requested capacity exceeds the global limit."%string]); (Variant "OpenHrmpChannelZeroMessageSize"%string [] 4%N ["The requested maximum message size is 0."%string]); (Variant "OpenHrmpChannelMessageSizeExceedsLimit"%string [] 5%N ["The open request requested the message size that exceeds the global limit."%string]); (Variant "OpenHrmpChannelAlreadyExists"%string [] 6%N ["The channel already exists"%string]); (Variant "OpenHrmpChannelAlreadyRequested"%string [] 7%N ["There is already a request to open the same channel."%string]); (Variant "OpenHrmpChannelLimitExceeded"%string [] 8%N ["The sender already has the maximum number of allowed outbound channels."%string]); (Variant "AcceptHrmpChannelDoesntExist"%string [] 9%N ["The channel from the sender to the origin doesn't exist."%string]); (Variant "AcceptHrmpChannelAlreadyConfirmed"%string [] 10%N ["The channel is already confirmed."%string]); (Variant "AcceptHrmpChannelLimitExceeded"%string [] 11%N ["The recipient already has the maximum number of allowed inbound channels."%string]); (Variant "CloseHrmpChannelUnauthorized"%string [] 12%N ["The origin tries to close a channel where it is neither the sender nor the recipient."%string]); (Variant "CloseHrmpChannelDoesntExist"%string [] 13%N ["The channel to be closed doesn't exist."%string]); (Variant "CloseHrmpChannelAlreadyUnderway"%string [] 14%N ["The channel close request is already requested."%string]); (Variant "CancelHrmpOpenChannelUnauthorized"%string [] 15%N ["Canceling is requested by neither the sender nor recipient of the open channel request."%string]); (Variant "OpenHrmpChannelDoesntExist"%string [] 16%N ["The open request doesn't exist."%string]); (Variant "OpenHrmpChannelAlreadyConfirmed"%string [] 17%N ["Cannot cancel an HRMP open channel request because it is already confirmed."%string]); (Variant "WrongWitness"%string [] 18%N ["The provided witness data is wrong."%string])]) ["
			Custom [dispatch errors](https://docs.substrate.io/main-docs/build/events-errors/)
			of this pallet.
			"%string]).
Definition md_t773 : ty := (Ty [] [] (TSequence 117%N) []).
Definition md_t774 : ty := (Ty ["polkadot_primitives"%string; "v4"%string; "SessionInfo"%string] [] (TComposite [(Field (Some "active_validator_indices"%string) 723%N (Some "Vec<ValidatorIndex>"%string) []); (Field (Some "random_seed"%string) 1%N (Some "[u8; 32]"%string) []); (Field (Some "dispute_period"%string) 4%N (Some "SessionIndex"%string) []); (Field (Some "validators"%string) 775%N (Some "IndexedVec<ValidatorIndex, ValidatorId>"%string) []); (Field (Some "discovery_keys"%string) 776%N (Some "Vec<AuthorityDiscoveryId>"%string) []); (Field (Some "assignment_keys"%string) 773%N (Some "Vec<AssignmentId>"%string) []); (Field (Some "validator_groups"%string) 777%N (Some "IndexedVec<GroupIndex, Vec<ValidatorIndex>>"%string) []); (Field (Some "n_cores"%string) 4%N (Some "u32"%string) []); (Field (Some "zeroth_delay_tranche_width"%string) 4%N (Some "u32"%string) []); (Field (Some "relay_vrf_modulo_samples"%string) 4%N (Some "u32"%string) []); (Field (Some "n_delay_tranches"%string) 4%N (Some "u32"%string) []); (Field (Some "no_show_slots"%string) 4%N (Some "u32"%string) []); (Field (Some "needed_approvals"%string) 4%N (Some "u32"%string) [])]) []).
Definition md_t775 : ty := (Ty ["polkadot_primitives"%string; "v4"%string; "IndexedVec"%string] [("K"%string,(Some 324%N)); ("V"%string,(Some 116%N))] (TComposite [(Field None 724%N (Some "Vec<V>"%string) [])]) []).
Definition md_t776 : ty := (Ty [] [] (TSequence 118%N) []).
Definition md_t777 : ty := (Ty ["polkadot_primitives"%string; "v4"%string; "IndexedVec"%string] [("K"%string,(Some 465%N)); ("V"%string,(Some 723%N))] (TComposite [(Field None 734%N (Some "Vec<V>"%string) [])]) []).
Definition md_t778 : ty := (Ty [] [] (TTuple [4%N; 345%N]) []).
Definition md_t779 : ty := (Ty ["polkadot_primitives"%string; "v4"%string; "DisputeState"%string] [("N"%string,(Some 4%N))] (TComposite [(Field (Some "validators_for"%string) 322%N (Some "BitVec<u8, bitvec::order::Lsb0>"%string) []); (Field (Some "validators_against"%string) 322%N (Some "BitVec<u8, bitvec::order::Lsb0>"%string) []); (Field (Some "start"%string) 4%N (Some "N"%string) []); (Field (Some "concluded_at"%string) 141%N (Some "Option<N>"%string) [])]) []).
Definition md_t780 : ty := (Ty ["BTreeSet"%string] [("T"%string,(Some 324%N))] (TComposite [(Field None 723%N None [])]) []).
Definition md_t781 : ty := (Ty ["polkadot_runtime_parachains"%string; "disputes"%string; "pallet"%string; "Error"%string] [("T"%string,None)] (TVariant [(Variant "DuplicateDisputeStatementSets"%string [] 0%N ["Duplicate dispute statement sets provided."%string]); (Variant "AncientDisputeStatement"%string [] 1%N ["Ancient dispute statement provided."%string]); (Variant "ValidatorIndexOutOfBounds"%string [] 2%N ["Validator index on statement is out of bounds for session."%string]); (Variant "InvalidSignature"%string [] 3%N ["Invalid signature on statement."%string]); (Variant "DuplicateStatement"%string [] 4%N ["Validator vote submitted more than once to dispute."%string]); (Variant "SingleSidedDispute"%string [] 5%N ["A dispute where there are only votes on one side."%string]); (Variant "MaliciousBacker"%string [] 6%N ["A dispute vote from a malicious backer."%string]); (Variant "MissingBackingVotes"%string [] 7%N ["No backing votes were provides along dispute statements."%string]); (Variant "UnconfirmedDispute"%string [] 8%N ["Unconfirmed dispute statement sets provided."%string])]) ["
			Custom [dispatch errors](https://docs.substrate.io/main-docs/build/events-errors/)
			of this pallet.
			"%string]).
Definition md_t782 : ty := (Ty ["polkadot_runtime_parachains"%string; "disputes"%string; "slashing"%string; "PendingSlashes"%string] [] (TComposite [(Field (Some "keys"%string) 783%N (Some "BTreeMap<ValidatorIndex, ValidatorId>"%string) []); (Field (Some "kind"%string) 360%N (Some "SlashingOffenceKind"%string) [])]) []).
Definition md_t783 : ty := (Ty ["BTreeMap"%string] [("K"%string,(Some 324%N)); ("V"%string,(Some 116%N))] (TComposite [(Field None 784%N None [])]) []).
Definition md_t784 : ty := (Ty [] [] (TSequence 785%N) []).
Definition md_t785 : ty := (Ty [] [] (TTuple [324%N; 116%N]) []).
Definition md_t786 : ty := (Ty ["polkadot_runtime_parachains"%string; "disputes"%string; "slashing"%string; "pallet"%string; "Error"%string] [("T"%string,None)] (TVariant [(Variant "InvalidKeyOwnershipProof"%string [] 0%N ["The key ownership proof is invalid."%string]); (Variant "InvalidSessionIndex"%string [] 1%N ["The session index is too old or invalid."%string]); (Variant "InvalidCandidateHash"%string [] 2%N ["The candidate hash is invalid."%string]); (Variant "InvalidValidatorIndex"%string [] 3%N ["There is no pending slash for the given validator index and time"%string; "slot."%string]); (Variant "ValidatorIndexIdMismatch"%string [] 4%N ["The validator index does not match the validator id."%string]); (Variant "DuplicateSlashingReport"%string [] 5%N ["The given slashing report is valid but already previously reported."%string])]) ["
			Custom [dispatch errors](https://docs.substrate.io/main-docs/build/events-errors/)
			of this pallet.
			"%string]).
Definition md_t787 : ty := (Ty ["polkadot_runtime_common"%string; "paras_registrar"%string; "ParaInfo"%string] [("Account"%string,(Some 0%N)); ("Balance"%string,(Some 6%N))] (TComposite [(Field (Some "manager"%string) 0%N (Some "Account"%string) []); (Field (Some "deposit"%string) 6%N (Some "Balance"%string) []); (Field (Some "locked"%string) 44%N (Some "bool"%string) [])]) []).
Definition md_t788 : ty := (Ty ["polkadot_runtime_common"%string; "paras_registrar"%string; "pallet"%string; "Error"%string] [("T"%string,None)] (TVariant [(Variant "NotRegistered"%string [] 0%N ["The ID is not registered."%string]); (Variant "AlreadyRegistered"%string [] 1%N ["The ID is already registered."%string]); (Variant "NotOwner"%string [] 2%N ["The caller is not the owner of this Id."%string]); (Variant "CodeTooLarge"%string [] 3%N ["Invalid para code size."%string]); (Variant "HeadDataTooLarge"%string [] 4%N ["Invalid para head data size."%string]); (Variant "NotParachain"%string [] 5%N ["Para is not a Parachain."%string]); (Variant "NotParathread"%string [] 6%N ["Para is not a Parathread."%string]); (Variant "CannotDeregister"%string [] 7%N ["Cannot deregister para"%string]); (Variant "CannotDowngrade"%string [] 8%N ["Cannot schedule downgrade of parachain to parathread"%string]); (Variant "CannotUpgrade"%string [] 9%N ["Cannot schedule upgrade of parathread to parachain"%string]); (Variant "ParaLocked"%string [] 10%N ["Para is locked from manipulation by the manager. Must use parachain or relay chain governance."%string]); (Variant "NotReserved"%string [] 11%N ["The ID given for registration has not been reserved."%string]); (Variant "EmptyCode"%string [] 12%N ["Registering parachain with empty code is not allowed."%string]); (Variant "CannotSwap"%string [] 13%N ["Cannot perform a parachain slot / lifecycle swap. Check that the state of both paras are"%string; "correct for the swap to work."%string])]) ["
			Custom [dispatch errors](https://docs.substrate.io/main-docs/build/events-errors/)
			of this pallet.
			"%string]).
Definition md_t789 : ty := (Ty [] [] (TSequence 501%N) []).
Definition md_t790 : ty := (Ty ["polkadot_runtime_common"%string; "slots"%string; "pallet"%string; "Error"%string] [("T"%string,None)] (TVariant [(Variant "ParaNotOnboarding"%string [] 0%N ["The parachain ID is not onboarding."%string]); (Variant "LeaseError"%string [] 1%N ["There was an error with the lease."%string])]) ["
			Custom [dispatch errors](https://docs.substrate.io/main-docs/build/events-errors/)
			of this pallet.
			"%string]).
Definition md_t791 : ty := (Ty [] [] (TTuple [0%N; 162%N]) []).
Definition md_t792 : ty := (Ty [] [] (TArray 36%N 793%N) []).
Definition md_t793 : ty := (Ty ["Option"%string] [("T"%string,(Some 794%N))] (TVariant [(Variant "None"%string [] 0%N []); (Variant "Some"%string [(Field None 794%N None [])] 1%N [])]) []).
Definition md_t794 : ty := (Ty [] [] (TTuple [0%N; 162%N; 6%N]) []).
Definition md_t795 : ty := (Ty ["polkadot_runtime_common"%string; "auctions"%string; "pallet"%string; "Error"%string] [("T"%string,None)] (TVariant [(Variant "AuctionInProgress"%string [] 0%N ["This auction is already in progress."%string]); (Variant "LeasePeriodInPast"%string [] 1%N ["The lease period is in the past."%string]); (Variant "ParaNotRegistered"%string [] 2%N ["Para is not registered"%string]); (Variant "NotCurrentAuction"%string [] 3%N ["Not a current auction."%string]); (Variant "NotAuction"%string [] 4%N ["Not an auction."%string]); (Variant "AuctionEnded"%string [] 5%N ["Auction has already ended."%string]); (Variant "AlreadyLeasedOut"%string [] 6%N ["The para is already leased out for part of this range."%string])]) ["
			Custom [dispatch errors](https://docs.substrate.io/main-docs/build/events-errors/)
			of this pallet.
			"%string]).
Definition md_t796 : ty := (Ty ["polkadot_runtime_common"%string; "crowdloan"%string; "FundInfo"%string] [("AccountId"%string,(Some 0%N)); ("Balance"%string,(Some 6%N)); ("BlockNumber"%string,(Some 4%N)); ("LeasePeriod"%string,(Some 4%N))] (TComposite [(Field (Some "depositor"%string) 0%N (Some "AccountId"%string) []); (Field (Some "verifier"%string) 366%N (Some "Option<MultiSigner>"%string) []); (Field (Some "deposit"%string) 6%N (Some "Balance"%string) []); (Field (Some "raised"%string) 6%N (Some "Balance"%string) []); (Field (Some "end"%string) 4%N (Some "BlockNumber"%string) []); (Field (Some "cap"%string) 6%N (Some "Balance"%string) []); (Field (Some "last_contribution"%string) 797%N (Some "LastContribution<BlockNumber>"%string) []); (Field (Some "first_period"%string) 4%N (Some "LeasePeriod"%string) []); (Field (Some "last_period"%string) 4%N (Some "LeasePeriod"%string) []); (Field (Some "fund_index"%string) 4%N (Some "FundIndex"%string) [])]) []).
Definition md_t797 : ty := (Ty ["polkadot_runtime_common"%string; "crowdloan"%string; "LastContribution"%string] [("BlockNumber"%string,(Some 4%N))] (TVariant [(Variant "Never"%string [] 0%N []); (Variant "PreEnding"%string [(Field None 4%N (Some "u32"%string) [])] 1%N []); (Variant "Ending"%string [(Field None 4%N (Some "BlockNumber"%string) [])] 2%N [])]) []).
Definition md_t798 : ty := (Ty ["polkadot_runtime_common"%string; "crowdloan"%string; "pallet"%string; "Error"%string] [("T"%string,None)] (TVariant [(Variant "FirstPeriodInPast"%string [] 0%N ["The current lease period is more than the first lease period."%string]); (Variant "FirstPeriodTooFarInFuture"%string [] 1%N ["The first lease period needs to at least be less than 3 `max_value`."%string]); (Variant "LastPeriodBeforeFirstPeriod"%string [] 2%N ["Last lease period must be greater than first lease period."%string]); (Variant "LastPeriodTooFarInFuture"%string [] 3%N ["The last lease period cannot be more than 3 periods after the first period."%string]); (Variant "CannotEndInPast"%string [] 4%N ["The campaign ends before the current block number. The end must be in the future."%string]); (Variant "EndTooFarInFuture"%string [] 5%N ["The end date for this crowdloan is not sensible."%string]); (Variant "Overflow"%string [] 6%N ["There was an overflow."%string]); (Variant "ContributionTooSmall"%string [] 7%N ["The contribution was below the minimum, `MinContribution`."%string]); (Variant "InvalidParaId"%string [] 8%N ["Invalid fund index."%string]); (Variant "CapExceeded"%string [] 9%N ["Contributions exceed maximum amount."%string]); (Variant "ContributionPeriodOver"%string [] 10%N ["The contribution period has already ended."%string]); (Variant "InvalidOrigin"%string [] 11%N ["The origin of this call is invalid."%string]); (Variant "NotParachain"%string [] 12%N ["This crowdloan does not correspond to a parachain."%string]); (Variant "LeaseActive"%string [] 13%N ["This parachain lease is still active and retirement cannot yet begin."%string]); (Variant "BidOrLeaseActive"%string [] 14%N ["This parachain's bid or lease is still active and withdraw cannot yet begin."%string]); (Variant "FundNotEnded"%string [] 15%N ["The crowdloan has not yet ended."%string]); (Variant "NoContributions"%string [] 16%N ["There are no contributions stored in this crowdloan."%string]); (Variant "NotReadyToDissolve"%string [] 17%N ["The crowdloan is not ready to dissolve. Potentially still has a slot or in retirement period."%string]); (Variant "InvalidSignature"%string [] 18%N ["Invalid signature."%string]); (Variant "MemoTooLarge"%string [] 19%N ["The provided memo is too large."%string]); (Variant "AlreadyInNewRaise"%string [] 20%N ["The fund is already in `NewRaise`"%string]); (Variant "VrfDelayInProgress"%string [] 21%N ["No contributions allowed during the VRF delay"%string]); (Variant "NoLeasePeriod"%string [] 22%N ["A lease period has not started yet, due to an offset in the starting block."%string])]) ["
			Custom [dispatch errors](https://docs.substrate.io/main-docs/build/events-errors/)
			of this pallet.
			"%string]).
Definition md_t799 : ty := (Ty ["pallet_xcm"%string; "pallet"%string; "QueryStatus"%string] [("BlockNumber"%string,(Some 4%N))] (TVariant [(Variant "Pending"%string [(Field (Some "responder"%string) 374%N (Some "VersionedMultiLocation"%string) []); (Field (Some "maybe_match_querier"%string) 800%N (Some "Option<VersionedMultiLocation>"%string) []); (Field (Some "maybe_notify"%string) 801%N (Some "Option<(u8, u8)>"%string) []); (Field (Some "timeout"%string) 4%N (Some "BlockNumber"%string) [])] 0%N []); (Variant "VersionNotifier"%string [(Field (Some "origin"%string) 374%N (Some "VersionedMultiLocation"%string) []); (Field (Some "is_active"%string) 44%N (Some "bool"%string) [])] 1%N []); (Variant "Ready"%string [(Field (Some "response"%string) 803%N (Some "VersionedResponse"%string) []); (Field (Some "at"%string) 4%N (Some "BlockNumber"%string) [])] 2%N [])]) []).
Definition md_t800 : ty := (Ty ["Option"%string] [("T"%string,(Some 374%N))] (TVariant [(Variant "None"%string [] 0%N []); (Variant "Some"%string [(Field None 374%N None [])] 1%N [])]) []).
Definition md_t801 : ty := (Ty ["Option"%string] [("T"%string,(Some 802%N))] (TVariant [(Variant "None"%string [] 0%N []); (Variant "Some"%string [(Field None 802%N None [])] 1%N [])]) []).
Definition md_t802 : ty := (Ty [] [] (TTuple [2%N; 2%N]) []).
Definition md_t803 : ty := (Ty ["xcm"%string; "VersionedResponse"%string] [] (TVariant [(Variant "V2"%string [(Field None 392%N (Some "v2::Response"%string) [])] 2%N []); (Variant "V3"%string [(Field None 411%N (Some "v3::Response"%string) [])] 3%N [])]) []).
Definition md_t804 : ty := (Ty [] [] (TTuple [4%N; 374%N]) []).
Definition md_t805 : ty := (Ty [] [] (TTuple [11%N; 9%N; 4%N]) []).
Definition md_t806 : ty := (Ty ["bounded_collections"%string; "bounded_vec"%string; "BoundedVec"%string] [("T"%string,(Some 807%N)); ("S"%string,None)] (TComposite [(Field None 808%N (Some "Vec<T>"%string) [])]) []).
Definition md_t807 : ty := (Ty [] [] (TTuple [374%N; 4%N]) []).
Definition md_t808 : ty := (Ty [] [] (TSequence 807%N) []).
Definition md_t809 : ty := (Ty ["pallet_xcm"%string; "pallet"%string; "VersionMigrationStage"%string] [] (TVariant [(Variant "MigrateSupportedVersion"%string [] 0%N []); (Variant "MigrateVersionNotifiers"%string [] 1%N []); (Variant "NotifyCurrentTargets"%string [(Field None 810%N (Some "Option<Vec<u8>>"%string) [])] 2%N []); (Variant "MigrateAndNotifyOldTargets"%string [] 3%N [])]) []).
Definition md_t810 : ty := (Ty ["Option"%string] [("T"%string,(Some 13%N))] (TVariant [(Variant "None"%string [] 0%N []); (Variant "Some"%string [(Field None 13%N None [])] 1%N [])]) []).
Definition md_t811 : ty := (Ty [] [] (TTuple [4%N; 0%N; 812%N]) []).
Definition md_t812 : ty := (Ty ["xcm"%string; "VersionedAssetId"%string] [] (TVariant [(Variant "V3"%string [(Field None 408%N (Some "v3::AssetId"%string) [])] 3%N [])]) []).
Definition md_t813 : ty := (Ty ["pallet_xcm"%string; "pallet"%string; "RemoteLockedFungibleRecord"%string] [("ConsumerIdentifier"%string,(Some 34%N)); ("MaxConsumers"%string,None)] (TComposite [(Field (Some "amount"%string) 6%N (Some "u128"%string) []); (Field (Some "owner"%string) 374%N (Some "VersionedMultiLocation"%string) []); (Field (Some "locker"%string) 374%N (Some "VersionedMultiLocation"%string) []); (Field (Some "consumers"%string) 814%N (Some "BoundedVec<(ConsumerIdentifier, u128), MaxConsumers>"%string) [])]) []).
Definition md_t814 : ty := (Ty ["bounded_collections"%string; "bounded_vec"%string; "BoundedVec"%string] [("T"%string,(Some 815%N)); ("S"%string,None)] (TComposite [(Field None 816%N (Some "Vec<T>"%string) [])]) []).
Definition md_t815 : ty := (Ty [] [] (TTuple [34%N; 6%N]) []).
Definition md_t816 : ty := (Ty [] [] (TSequence 815%N) []).
Definition md_t817 : ty := (Ty ["bounded_collections"%string; "bounded_vec"%string; "BoundedVec"%string] [("T"%string,(Some 818%N)); ("S"%string,None)] (TComposite [(Field None 819%N (Some "Vec<T>"%string) [])]) []).
Definition md_t818 : ty := (Ty [] [] (TTuple [6%N; 374%N]) []).
Definition md_t819 : ty := (Ty [] [] (TSequence 818%N) []).
Definition md_t820 : ty := (Ty ["pallet_xcm"%string; "pallet"%string; "Error"%string] [("T"%string,None)] (TVariant [(Variant "Unreachable"%string [] 0%N ["The desired destination was unreachable, generally because there is a no way of routing"%string; "to it."%string]); (Variant "SendFailure"%string [] 1%N ["There was some other issue (i.e. not to do with routing) in sending the message. Perhaps"%string; "a lack of space for buffering the message."%string]); (Variant "Filtered"%string [] 2%N ["The message execution fails the filter."%string]); (Variant "UnweighableMessage"%string [] 3%N ["The message's weight could not be determined."%string]); (Variant "DestinationNotInvertible"%string [] 4%N ["The destination `MultiLocation` provided cannot be inverted."%string]); (Variant "Empty"%string [] 5%N ["The assets to be sent are empty."%string]); (Variant "CannotReanchor"%string [] 6%N ["Could not re-anchor the assets to declare the fees for the destination chain."%string]); (Variant "TooManyAssets"%string [] 7%N ["Too many assets have been attempted for transfer."%string]); (Variant "InvalidOrigin"%string [] 8%N ["Origin is invalid for sending."%string]); (Variant "BadVersion"%string [] 9%N ["The version of the `Versioned` value used is not able to be interpreted."%string]); (Variant "BadLocation"%string [] 10%N ["The given location could not be used (e.g. because it cannot be expressed in the"%string; "desired version of XCM)."%string]); (Variant "NoSubscription"%string [] 11%N ["The referenced subscription could not be found."%string]); (Variant "AlreadySubscribed"%string [] 12%N ["The location is invalid since it already has a subscription from us."%string]); (Variant "InvalidAsset"%string [] 13%N ["Invalid asset for the operation."%string]); (Variant "LowBalance"%string [] 14%N ["The owner does not own (all) of the asset that they wish to do the operation on."%string]); (Variant "TooManyLocks"%string [] 15%N ["The asset owner has too many locks on the asset."%string]); (Variant "AccountNotSovereign"%string [] 16%N ["The given account is not an identifiable sovereign account for any location."%string]); (Variant "FeesNotMet"%string [] 17%N ["The operation required fees to be paid which the initiator could not meet."%string]); (Variant "LockNotFound"%string [] 18%N ["A remote lock with the corresponding data could not be found."%string]); (Variant "InUse"%string [] 19%N ["The unlock operation cannot succeed because there are still consumers of the lock."%string])]) ["
			Custom [dispatch errors](https://docs.substrate.io/main-docs/build/events-errors/)
			of this pallet.
			"%string]).
Definition md_t821 : ty := (Ty ["pallet_message_queue"%string; "BookState"%string] [("MessageOrigin"%string,(Some 437%N))] (TComposite [(Field (Some "begin"%string) 4%N (Some "PageIndex"%string) []); (Field (Some "end"%string) 4%N (Some "PageIndex"%string) []); (Field (Some "count"%string) 4%N (Some "PageIndex"%string) []); (Field (Some "ready_neighbours"%string) 822%N (Some "Option<Neighbours<MessageOrigin>>"%string) []); (Field (Some "message_count"%string) 11%N (Some "u64"%string) []); (Field (Some "size"%string) 11%N (Some "u64"%string) [])]) []).
Definition md_t822 : ty := (Ty ["Option"%string] [("T"%string,(Some 823%N))] (TVariant [(Variant "None"%string [] 0%N []); (Variant "Some"%string [(Field None 823%N None [])] 1%N [])]) []).
Definition md_t823 : ty := (Ty ["pallet_message_queue"%string; "Neighbours"%string] [("MessageOrigin"%string,(Some 437%N))] (TComposite [(Field (Some "prev"%string) 437%N (Some "MessageOrigin"%string) []); (Field (Some "next"%string) 437%N (Some "MessageOrigin"%string) [])]) []).
Definition md_t824 : ty := (Ty [] [] (TTuple [437%N; 4%N]) []).
Definition md_t825 : ty := (Ty ["pallet_message_queue"%string; "Page"%string] [("Size"%string,(Some 4%N)); ("HeapSize"%string,None)] (TComposite [(Field (Some "remaining"%string) 4%N (Some "Size"%string) []); (Field (Some "remaining_size"%string) 4%N (Some "Size"%string) []); (Field (Some "first_index"%string) 4%N (Some "Size"%string) []); (Field (Some "first"%string) 4%N (Some "Size"%string) []); (Field (Some "last"%string) 4%N (Some "Size"%string) []); (Field (Some "heap"%string) 826%N (Some "BoundedVec<u8, IntoU32<HeapSize, Size>>"%string) [])]) []).
Definition md_t826 : ty := (Ty ["bounded_collections"%string; "bounded_vec"%string; "BoundedVec"%string] [("T"%string,(Some 2%N)); ("S"%string,None)] (TComposite [(Field None 13%N (Some "Vec<T>"%string) [])]) []).
Definition md_t827 : ty := (Ty ["pallet_message_queue"%string; "pallet"%string; "Error"%string] [("T"%string,None)] (TVariant [(Variant "NotReapable"%string [] 0%N ["Page is not reapable because it has items remaining to be processed and is not old"%string; "enough."%string]); (Variant "NoPage"%string [] 1%N ["Page to be reaped does not exist."%string]); (Variant "NoMessage"%string [] 2%N ["The referenced message could not be found."%string]); (Variant "AlreadyProcessed"%string [] 3%N ["The message was already processed and cannot be processed again."%string]); (Variant "Queued"%string [] 4%N ["The message is queued for future execution."%string]); (Variant "InsufficientWeight"%string [] 5%N ["There is temporarily not enough weight to continue servicing messages."%string]); (Variant "TemporarilyUnprocessable"%string [] 6%N ["This message is temporarily unprocessable."%string; ""%string; "Such errors are expected, but not guaranteed, to resolve themselves eventually through"%string; "retrying."%string])]) ["
			Custom [dispatch errors](https://docs.substrate.io/main-docs/build/events-errors/)
			of this pallet.
			"%string]).
Definition md_t828 : ty := (Ty ["sp_runtime"%string; "generic"%string; "unchecked_extrinsic"%string; "UncheckedExtrinsic"%string] [("Address"%string,(Some 100%N)); ("Call"%string,(Some 79%N)); ("Signature"%string,(Some 371%N)); ("Extra"%string,(Some 829%N))] (TComposite [(Field None 13%N None [])]) []).
Definition md_t829 : ty := (Ty [] [] (TTuple [830%N; 831%N; 832%N; 833%N; 834%N; 836%N; 837%N; 838%N; 839%N]) []).
Definition md_t830 : ty := (Ty ["frame_system"%string; "extensions"%string; "check_non_zero_sender"%string; "CheckNonZeroSender"%string] [("T"%string,None)] (TComposite []) []).
Definition md_t831 : ty := (Ty ["frame_system"%string; "extensions"%string; "check_spec_version"%string; "CheckSpecVersion"%string] [("T"%string,None)] (TComposite []) []).
Definition md_t832 : ty := (Ty ["frame_system"%string; "extensions"%string; "check_tx_version"%string; "CheckTxVersion"%string] [("T"%string,None)] (TComposite []) []).
Definition md_t833 : ty := (Ty ["frame_system"%string; "extensions"%string; "check_genesis"%string; "CheckGenesis"%string] [("T"%string,None)] (TComposite []) []).
Definition md_t834 : ty := (Ty ["frame_system"%string; "extensions"%string; "check_mortality"%string; "CheckMortality"%string] [("T"%string,None)] (TComposite [(Field None 835%N (Some "Era"%string) [])]) []).
Definition md_t835 : ty := (Ty ["sp_runtime"%string; "generic"%string; "era"%string; "Era"%string] [] (TVariant [(Variant "Immortal"%string [] 0%N []); (Variant "Mortal1"%string [(Field None 2%N None [])] 1%N []); (Variant "Mortal2"%string [(Field None 2%N None [])] 2%N []); (Variant "Mortal3"%string [(Field None 2%N None [])] 3%N []); (Variant "Mortal4"%string [(Field None 2%N None [])] 4%N []); (Variant "Mortal5"%string [(Field None 2%N None [])] 5%N []); (Variant "Mortal6"%string [(Field None 2%N None [])] 6%N []); (Variant "Mortal7"%string [(Field None 2%N None [])] 7%N []); (Variant "Mortal8"%string [(Field None 2%N None [])] 8%N []); (Variant "Mortal9"%string [(Field None 2%N None [])] 9%N []); (Variant "Mortal10"%string [(Field None 2%N None [])] 10%N []); (Variant "Mortal11"%string [(Field None 2%N None [])] 11%N []); (Variant "Mortal12"%string [(Field None 2%N None [])] 12%N []); (Variant "Mortal13"%string [(Field None 2%N None [])] 13%N []); (Variant "Mortal14"%string [(Field None 2%N None [])] 14%N []); (Variant "Mortal15"%string [(Field None 2%N None [])] 15%N []); (Variant "Mortal16"%string [(Field None 2%N None [])] 16%N []); (Variant "Mortal17"%string [(Field None 2%N None [])] 17%N []); (Variant "Mortal18"%string [(Field None 2%N None [])] 18%N []); (Variant "Mortal19"%string [(Field None 2%N None [])] 19%N []); (Variant "Mortal20"%string [(Field None 2%N None [])] 20%N []); (Variant "Mortal21"%string [(Field None 2%N None [])] 21%N []); (Variant "Mortal22"%string [(Field None 2%N None [])] 22%N []); (Variant "Mortal23"%string [(Field None 2%N None [])] 23%N []); (Variant "Mortal24"%string [(Field None 2%N None [])] 24%N []); (Variant "Mortal25"%string [(Field None 2%N None [])] 25%N []); (Variant "Mortal26"%string [(Field None 2%N None [])] 26%N []); (Variant "Mortal27"%string [(Field None 2%N None [])] 27%N []); (Variant "Mortal28"%string [(Field None 2%N None [])] 28%N []); (Variant "Mortal29"%string [(Field None 2%N None [])] 29%N []); (Variant "Mortal30"%string [(Field None 2%N None [])] 30%N []); (Variant "Mortal31"%string [(Field None 2%N None [])] 31%N []); (Variant "Mortal32"%string [(Field None 2%N None [])] 32%N []); (Variant "Mortal33"%string [(Field None 2%N None [])] 33%N []); (Variant "Mortal34"%string [(Field None 2%N None [])] 34%N []); (Variant "Mortal35"%string [(Field None 2%N None [])] 35%N []); (Variant "Mortal36"%string [(Field None 2%N None [])] 36%N []); (Variant "Mortal37"%string [(Field None 2%N None [])] 37%N []); (Variant "Mortal38"%string [(Field None 2%N None [])] 38%N []); (Variant "Mortal39"%string [(Field None 2%N None [])] 39%N []); (Variant "Mortal40"%string [(Field None 2%N None [])] 40%N []); (Variant "Mortal41"%string [(Field None 2%N None [])] 41%N []); (Variant "Mortal42"%string [(Field None 2%N None [])] 42%N []); (Variant "Mortal43"%string [(Field None 2%N None [])] 43%N []); (Variant "Mortal44"%string [(Field None 2%N None [])] 44%N []); (Variant "Mortal45"%string [(Field None 2%N None [])] 45%N []); (Variant "Mortal46"%string [(Field None 2%N None [])] 46%N []); (Variant "Mortal47"%string [(Field None 2%N None [])] 47%N []); (Variant "Mortal48"%string [(Field None 2%N None [])] 48%N []); (Variant "Mortal49"%string [(Field None 2%N None [])] 49%N []); (Variant "Mortal50"%string [(Field None 2%N None [])] 50%N []); (Variant "Mortal51"%string [(Field None 2%N None [])] 51%N []); (Variant "Mortal52"%string [(Field None 2%N None [])] 52%N []); (Variant "Mortal53"%string [(Field None 2%N None [])] 53%N []); (Variant "Mortal54"%string [(Field None 2%N None [])] 54%N []); (Variant "Mortal55"%string [(Field None 2%N None [])] 55%N []); (Variant "Mortal56"%string [(Field None 2%N None [])] 56%N []); (Variant "Mortal57"%string [(Field None 2%N None [])] 57%N []); (Variant "Mortal58"%string [(Field None 2%N None [])] 58%N []); (Variant "Mortal59"%string [(Field None 2%N None [])] 59%N []); (Variant "Mortal60"%string [(Field None 2%N None [])] 60%N []); (Variant "Mortal61"%string [(Field None 2%N None [])] 61%N []); (Variant "Mortal62"%string [(Field None 2%N None [])] 62%N []); (Variant "Mortal63"%string [(Field None 2%N None [])] 63%N []); (Variant "Mortal64"%string [(Field None 2%N None [])] 64%N []); (Variant "Mortal65"%string [(Field None 2%N None [])] 65%N []); (Variant "Mortal66"%string [(Field None 2%N None [])] 66%N []); (Variant "Mortal67"%string [(Field None 2%N None [])] 67%N []); (Variant "Mortal68"%string [(Field None 2%N None [])] 68%N []); (Variant "Mortal69"%string [(Field None 2%N None [])] 69%N []); (Variant "Mortal70"%string [(Field None 2%N None [])] 70%N []); (Variant "Mortal71"%string [(Field None 2%N None [])] 71%N []); (Variant "Mortal72"%string [(Field None 2%N None [])] 72%N []); (Variant "Mortal73"%string [(Field None 2%N None [])] 73%N []); (Variant "Mortal74"%string [(Field None 2%N None [])] 74%N []); (Variant "Mortal75"%string [(Field None 2%N None [])] 75%N []); (Variant "Mortal76"%string [(Field None 2%N None [])] 76%N []); (Variant "Mortal77"%string [(Field None 2%N None [])] 77%N []); (Variant "Mortal78"%string [(Field None 2%N None [])] 78%N []); (Variant "Mortal79"%string [(Field None 2%N None [])] 79%N []); (Variant "Mortal80"%string [(Field None 2%N None [])] 80%N []); (Variant "Mortal81"%string [(Field None 2%N None [])] 81%N []); (Variant "Mortal82"%string [(Field None 2%N None [])] 82%N []); (Variant "Mortal83"%string [(Field None 2%N None [])] 83%N []); (Variant "Mortal84"%string [(Field None 2%N None [])] 84%N []); (Variant "Mortal85"%string [(Field None 2%N None [])] 85%N []); (Variant "Mortal86"%string [(Field None 2%N None [])] 86%N []); (Variant "Mortal87"%string [(Field None 2%N None [])] 87%N []); (Variant "Mortal88"%string [(Field None 2%N None [])] 88%N []); (Variant "Mortal89"%string [(Field None 2%N None [])] 89%N []); (Variant "Mortal90"%string [(Field None 2%N None [])] 90%N []); (Variant "Mortal91"%string [(Field None 2%N None [])] 91%N []); (Variant "Mortal92"%string [(Field None 2%N None [])] 92%N []); (Variant "Mortal93"%string [(Field None 2%N None [])] 93%N []); (Variant "Mortal94"%string [(Field None 2%N None [])] 94%N []); (Variant "Mortal95"%string [(Field None 2%N None [])] 95%N []); (Variant "Mortal96"%string [(Field None 2%N None [])] 96%N []); (Variant "Mortal97"%string [(Field None 2%N None [])] 97%N []); (Variant "Mortal98"%string [(Field None 2%N None [])] 98%N []); (Variant "Mortal99"%string [(Field None 2%N None [])] 99%N []); (Variant "Mortal100"%string [(Field None 2%N None [])] 100%N []); (Variant "Mortal101"%string [(Field None 2%N None [])] 101%N []); (Variant "Mortal102"%string [(Field None 2%N None [])] 102%N []); (Variant "Mortal103"%string [(Field None 2%N None [])] 103%N []); (Variant "Mortal104"%string [(Field None 2%N None [])] 104%N []); (Variant "Mortal105"%string [(Field None 2%N None [])] 105%N []); (Variant "Mortal106"%string [(Field None 2%N None [])] 106%N []); (Variant "Mortal107"%string [(Field None 2%N None [])] 107%N []); (Variant "Mortal108"%string [(Field None 2%N None [])] 108%N []); (Variant "Mortal109"%string [(Field None 2%N None [])] 109%N []); (Variant "Mortal110"%string [(Field None 2%N None [])] 110%N []); (Variant "Mortal111"%string [(Field None 2%N None [])] 111%N []); (Variant "Mortal112"%string [(Field None 2%N None [])] 112%N []); (Variant "Mortal113"%string [(Field None 2%N None [])] 113%N []); (Variant "Mortal114"%string [(Field None 2%N None [])] 114%N []); (Variant "Mortal115"%string [(Field None 2%N None [])] 115%N []); (Variant "Mortal116"%string [(Field None 2%N None [])] 116%N []); (Variant "Mortal117"%string [(Field None 2%N None [])] 117%N []); (Variant "Mortal118"%string [(Field None 2%N None [])] 118%N []); (Variant "Mortal119"%string [(Field None 2%N None [])] 119%N []); (Variant "Mortal120"%string [(Field None 2%N None [])] 120%N []); (Variant "Mortal121"%string [(Field None 2%N None [])] 121%N []); (Variant "Mortal122"%string [(Field None 2%N None [])] 122%N []); (Variant "Mortal123"%string [(Field None 2%N None [])] 123%N []); (Variant "Mortal124"%string [(Field None 2%N None [])] 124%N []); (Variant "Mortal125"%string [(Field None 2%N None [])] 125%N []); (Variant "Mortal126"%string [(Field None 2%N None [])] 126%N []); (Variant "Mortal127"%string [(Field None 2%N None [])] 127%N []); (Variant "Mortal128"%string [(Field None 2%N None [])] 128%N []); (Variant "Mortal129"%string [(Field None 2%N None [])] 129%N []); (Variant "Mortal130"%string [(Field None 2%N None [])] 130%N []); (Variant "Mortal131"%string [(Field None 2%N None [])] 131%N []); (Variant "Mortal132"%string [(Field None 2%N None [])] 132%N []); (Variant "Mortal133"%string [(Field None 2%N None [])] 133%N []); (Variant "Mortal134"%string [(Field None 2%N None [])] 134%N []); (Variant "Mortal135"%string [(Field None 2%N None [])] 135%N []); (Variant "Mortal136"%string [(Field None 2%N None [])] 136%N []); (Variant "Mortal137"%string [(Field None 2%N None [])] 137%N []); (Variant "Mortal138"%string [(Field None 2%N None [])] 138%N []); (Variant "Mortal139"%string [(Field None 2%N None [])] 139%N []); (Variant "Mortal140"%string [(Field None 2%N None [])] 140%N []); (Variant "Mortal141"%string [(Field None 2%N None [])] 141%N []); (Variant "Mortal142"%string [(Field None 2%N None [])] 142%N []); (Variant "Mortal143"%string [(Field None 2%N None [])] 143%N []); (Variant "Mortal144"%string [(Field None 2%N None [])] 144%N []); (Variant "Mortal145"%string [(Field None 2%N None [])] 145%N []); (Variant "Mortal146"%string [(Field None 2%N None [])] 146%N []); (Variant "Mortal147"%string [(Field None 2%N None [])] 147%N []); (Variant "Mortal148"%string [(Field None 2%N None [])] 148%N []); (Variant "Mortal149"%string [(Field None 2%N None [])] 149%N []); (Variant "Mortal150"%string [(Field None 2%N None [])] 150%N []); (Variant "Mortal151"%string [(Field None 2%N None [])] 151%N []); (Variant "Mortal152"%string [(Field None 2%N None [])] 152%N []); (Variant "Mortal153"%string [(Field None 2%N None [])] 153%N []); (Variant "Mortal154"%string [(Field None 2%N None [])] 154%N []); (Variant "Mortal155"%string [(Field None 2%N None [])] 155%N []); (Variant "Mortal156"%string [(Field None 2%N None [])] 156%N []); (Variant "Mortal157"%string [(Field None 2%N None [])] 157%N []); (Variant "Mortal158"%string [(Field None 2%N None [])] 158%N []); (Variant "Mortal159"%string [(Field None 2%N None [])] 159%N []); (Variant "Mortal160"%string [(Field None 2%N None [])] 160%N []); (Variant "Mortal161"%string [(Field None 2%N None [])] 161%N []); (Variant "Mortal162"%string [(Field None 2%N None [])] 162%N []); (Variant "Mortal163"%string [(Field None 2%N None [])] 163%N []); (Variant "Mortal164"%string [(Field None 2%N None [])] 164%N []); (Variant "Mortal165"%string [(Field None 2%N None [])] 165%N []); (Variant "Mortal166"%string [(Field None 2%N None [])] 166%N []); (Variant "Mortal167"%string [(Field None 2%N None [])] 167%N []); (Variant "Mortal168"%string [(Field None 2%N None [])] 168%N []); (Variant "Mortal169"%string [(Field None 2%N None [])] 169%N []); (Variant "Mortal170"%string [(Field None 2%N None [])] 170%N []); (Variant "Mortal171"%string [(Field None 2%N None [])] 171%N []); (Variant "Mortal172"%string [(Field None 2%N None [])] 172%N []); (Variant "Mortal173"%string [(Field None 2%N None [])] 173%N []); (Variant "Mortal174"%string [(Field None 2%N None [])] 174%N []); (Variant "Mortal175"%string [(Field None 2%N None [])] 175%N []); (Variant "Mortal176"%string [(Field None 2%N None [])] 176%N []); (Variant "Mortal177"%string [(Field None 2%N None [])] 177%N []); (Variant "Mortal178"%string [(Field None 2%N None [])] 178%N []); (Variant "Mortal179"%string [(Field None 2%N None [])] 179%N []); (Variant "Mortal180"%string [(Field None 2%N None [])] 180%N []); (Variant "Mortal181"%string [(Field None 2%N None [])] 181%N []); (Variant "Mortal182"%string [(Field None 2%N None [])] 182%N []); (Variant "Mortal183"%string [(Field None 2%N None [])] 183%N []); (Variant "Mortal184"%string [(Field None 2%N None [])] 184%N []); (Variant "Mortal185"%string [(Field None 2%N None [])] 185%N []); (Variant "Mortal186"%string [(Field None 2%N None [])] 186%N []); (Variant "Mortal187"%string [(Field None 2%N None [])] 187%N []); (Variant "Mortal188"%string [(Field None 2%N None [])] 188%N []); (Variant "Mortal189"%string [(Field None 2%N None [])] 189%N []); (Variant "Mortal190"%string [(Field None 2%N None [])] 190%N []); (Variant "Mortal191"%string [(Field None 2%N None [])] 191%N []); (Variant "Mortal192"%string [(Field None 2%N None [])] 192%N []); (Variant "Mortal193"%string [(Field None 2%N None [])] 193%N []); (Variant "Mortal194"%string [(Field None 2%N None [])] 194%N []); (Variant "Mortal195"%string [(Field None 2%N None [])] 195%N []); (Variant "Mortal196"%string [(Field None 2%N None [])] 196%N []); (Variant "Mortal197"%string [(Field None 2%N None [])] 197%N []); (Variant "Mortal198"%string [(Field None 2%N None [])] 198%N []); (Variant "Mortal199"%string [(Field None 2%N None [])] 199%N []); (Variant "Mortal200"%string [(Field None 2%N None [])] 200%N []); (Variant "Mortal201"%string [(Field None 2%N None [])] 201%N []); (Variant "Mortal202"%string [(Field None 2%N None [])] 202%N []); (Variant "Mortal203"%string [(Field None 2%N None [])] 203%N []); (Variant "Mortal204"%string [(Field None 2%N None [])] 204%N []); (Variant "Mortal205"%string [(Field None 2%N None [])] 205%N []); (Variant "Mortal206"%string [(Field None 2%N None [])] 206%N []); (Variant "Mortal207"%string [(Field None 2%N None [])] 207%N []); (Variant "Mortal208"%string [(Field None 2%N None [])] 208%N []); (Variant "Mortal209"%string [(Field None 2%N None [])] 209%N []); (Variant "Mortal210"%string [(Field None 2%N None [])] 210%N []); (Variant "Mortal211"%string [(Field None 2%N None [])] 211%N []); (Variant "Mortal212"%string [(Field None 2%N None [])] 212%N []); (Variant "Mortal213"%string [(Field None 2%N None [])] 213%N []); (Variant "Mortal214"%string [(Field None 2%N None [])] 214%N []); (Variant "Mortal215"%string [(Field None 2%N None [])] 215%N []); (Variant "Mortal216"%string [(Field None 2%N None [])] 216%N []); (Variant "Mortal217"%string [(Field None 2%N None [])] 217%N []); (Variant "Mortal218"%string [(Field None 2%N None [])] 218%N []); (Variant "Mortal219"%string [(Field None 2%N None [])] 219%N []); (Variant "Mortal220"%string [(Field None 2%N None [])] 220%N []); (Variant "Mortal221"%string [(Field None 2%N None [])] 221%N []); (Variant "Mortal222"%string [(Field None 2%N None [])] 222%N []); (Variant "Mortal223"%string [(Field None 2%N None [])] 223%N []); (Variant "Mortal224"%string [(Field None 2%N None [])] 224%N []); (Variant "Mortal225"%string [(Field None 2%N None [])] 225%N []); (Variant "Mortal226"%string [(Field None 2%N None [])] 226%N []); (Variant "Mortal227"%string [(Field None 2%N None [])] 227%N []); (Variant "Mortal228"%string [(Field None 2%N None [])] 228%N []); (Variant "Mortal229"%string [(Field None 2%N None [])] 229%N []); (Variant "Mortal230"%string [(Field None 2%N None [])] 230%N []); (Variant "Mortal231"%string [(Field None 2%N None [])] 231%N []); (Variant "Mortal232"%string [(Field None 2%N None [])] 232%N []); (Variant "Mortal233"%string [(Field None 2%N None [])] 233%N []); (Variant "Mortal234"%string [(Field None 2%N None [])] 234%N []); (Variant "Mortal235"%string [(Field None 2%N None [])] 235%N []); (Variant "Mortal236"%string [(Field None 2%N None [])] 236%N []); (Variant "Mortal237"%string [(Field None 2%N None [])] 237%N []); (Variant "Mortal238"%string [(Field None 2%N None [])] 238%N []); (Variant "Mortal239"%string [(Field None 2%N None [])] 239%N []); (Variant "Mortal240"%string [(Field None 2%N None [])] 240%N []); (Variant "Mortal241"%string [(Field None 2%N None [])] 241%N []); (Variant "Mortal242"%string [(Field None 2%N None [])] 242%N []); (Variant "Mortal243"%string [(Field None 2%N None [])] 243%N []); (Variant "Mortal244"%string [(Field None 2%N None [])] 244%N []); (Variant "Mortal245"%string [(Field None 2%N None [])] 245%N []); (Variant "Mortal246"%string [(Field None 2%N None [])] 246%N []); (Variant "Mortal247"%string [(Field None 2%N None [])] 247%N []); (Variant "Mortal248"%string [(Field None 2%N None [])] 248%N []); (Variant "Mortal249"%string [(Field None 2%N None [])] 249%N []); (Variant "Mortal250"%string [(Field None 2%N None [])] 250%N []); (Variant "Mortal251"%string [(Field None 2%N None [])] 251%N []); (Variant "Mortal252"%string [(Field None 2%N None [])] 252%N []); (Variant "Mortal253"%string [(Field None 2%N None [])] 253%N []); (Variant "Mortal254"%string [(Field None 2%N None [])] 254%N []); (Variant "Mortal255"%string [(Field None 2%N None [])] 255%N [])]) []).
Definition md_t836 : ty := (Ty ["frame_system"%string; "extensions"%string; "check_nonce"%string; "CheckNonce"%string] [("T"%string,None)] (TComposite [(Field None 91%N (Some "T::Index"%string) [])]) []).
Definition md_t837 : ty := (Ty ["frame_system"%string; "extensions"%string; "check_weight"%string; "CheckWeight"%string] [("T"%string,None)] (TComposite []) []).
Definition md_t838 : ty := (Ty ["pallet_transaction_payment"%string; "ChargeTransactionPayment"%string] [("T"%string,None)] (TComposite [(Field None 60%N (Some "BalanceOf<T>"%string) [])]) []).
Definition md_t839 : ty := (Ty ["polkadot_runtime_common"%string; "claims"%string; "PrevalidateAttests"%string] [("T"%string,None)] (TComposite []) []).
Definition md_t840 : ty := (Ty ["polkadot_runtime"%string; "Runtime"%string] [] (TComposite []) []).
Definition md_types : list ty := [md_t0; md_t1; md_t2; md_t3; md_t4; md_t5; md_t6; md_t7; md_t8; md_t9; md_t10; md_t11; md_t12; md_t13; md_t14; md_t15; md_t16; md_t17; md_t18; md_t19; md_t20; md_t21; md_t22; md_t23; md_t24; md_t25; md_t26; md_t27; md_t28; md_t29; md_t30; md_t31; md_t32; md_t33; md_t34; md_t35; md_t36; md_t37; md_t38; md_t39; md_t40; md_t41; md_t42; md_t43; md_t44; md_t45; md_t46; md_t47; md_t48; md_t49; md_t50; md_t51; md_t52; md_t53; md_t54; md_t55; md_t56; md_t57; md_t58; md_t59; md_t60; md_t61; md_t62; md_t63; md_t64; md_t65; md_t66; md_t67; md_t68; md_t69; md_t70; md_t71; md_t72; md_t73; md_t74; md_t75; md_t76; md_t77; md_t78; md_t79; md_t80; md_t81; md_t82; md_t83; md_t84; md_t85; md_t86; md_t87; md_t88; md_t89; md_t90; md_t91; md_t92; md_t93; md_t94; md_t95; md_t96; md_t97; md_t98; md_t99; md_t100; md_t101; md_t102; md_t103; md_t104; md_t105; md_t106; md_t107; md_t108; md_t109; md_t110; md_t111; md_t112; md_t113; md_t114; md_t115; md_t116; md_t117; md_t118; md_t119; md_t120; md_t121; md_t122; md_t123; md_t124; md_t125; md_t126; md_t127; md_t128; md_t129; md_t130; md_t131; md_t132; md_t133; md_t134; md_t135; md_t136; md_t137; md_t138; md_t139; md_t140; md_t141; md_t142; md_t143; md_t144; md_t145; md_t146; md_t147; md_t148; md_t149; md_t150; md_t151; md_t152; md_t153; md_t154; md_t155; md_t156; md_t157; md_t158; md_t159; md_t160; md_t161; md_t162; md_t163; md_t164; md_t165; md_t166; md_t167; md_t168; md_t169; md_t170; md_t171; md_t172; md_t173; md_t174; md_t175; md_t176; md_t177; md_t178; md_t179; md_t180; md_t181; md_t182; md_t183; md_t184; md_t185; md_t186; md_t187; md_t188; md_t189; md_t190; md_t191; md_t192; md_t193; md_t194; md_t195; md_t196; md_t197; md_t198; md_t199; md_t200; md_t201; md_t202; md_t203; md_t204; md_t205; md_t206; md_t207; md_t208; md_t209; md_t210; md_t211; md_t212; md_t213; md_t214; md_t215; md_t216; md_t217; md_t218; md_t219; md_t220; md_t221; md_t222; md_t223; md_t224; md_t225; md_t226; md_t227; md_t228; md_t229; md_t230; md_t231; md_t232; md_t233; md_t234; md_t235; md_t236; md_t237; md_t238; md_t239; md_t240; md_t241; md_t242; md_t243; md_t244; md_t245; md_t246; md_t247; md_t248; md_t249; md_t250; md_t251; md_t252; md_t253; md_t254; md_t255; md_t256; md_t257; md_t258; md_t259; md_t260; md_t261; md_t262; md_t263; md_t264; md_t265; md_t266; md_t267; md_t268; md_t269; md_t270; md_t271; md_t272; md_t273; md_t274; md_t275; md_t276; md_t277; md_t278; md_t279; md_t280; md_t281; md_t282; md_t283; md_t284; md_t285; md_t286; md_t287; md_t288; md_t289; md_t290; md_t291; md_t292; md_t293; md_t294; md_t295; md_t296; md_t297; md_t298; md_t299; md_t300; md_t301; md_t302; md_t303; md_t304; md_t305; md_t306; md_t307; md_t308; md_t309; md_t310; md_t311; md_t312; md_t313; md_t314; md_t315; md_t316; md_t317; md_t318; md_t319; md_t320; md_t321; md_t322; md_t323; md_t324; md_t325; md_t326; md_t327; md_t328; md_t329; md_t330; md_t331; md_t332; md_t333; md_t334; md_t335; md_t336; md_t337; md_t338; md_t339; md_t340; md_t341; md_t342; md_t343; md_t344; md_t345; md_t346; md_t347; md_t348; md_t349; md_t350; md_t351; md_t352; md_t353; md_t354; md_t355; md_t356; md_t357; md_t358; md_t359; md_t360; md_t361; md_t362; md_t363; md_t364; md_t365; md_t366; md_t367; md_t368; md_t369; md_t370; md_t371; md_t372; md_t373; md_t374; md_t375; md_t376; md_t377; md_t378; md_t379; md_t380; md_t381; md_t382; md_t383; md_t384; md_t385; md_t386; md_t387; md_t388; md_t389; md_t390; md_t391; md_t392; md_t393; md_t394; md_t395; md_t396; md_t397; md_t398; md_t399; md_t400; md_t401; md_t402; md_t403; md_t404; md_t405; md_t406; md_t407; md_t408; md_t409; md_t410; md_t411; md_t412; md_t413; md_t414; md_t415; md_t416; md_t417; md_t418; md_t419; md_t420; md_t421; md_t422; md_t423; md_t424; md_t425; md_t426; md_t427; md_t428; md_t429; md_t430; md_t431; md_t432; md_t433; md_t434; md_t435; md_t436; md_t437; md_t438; md_t439; md_t440; md_t441; md_t442; md_t443; md_t444; md_t445; md_t446; md_t447; md_t448; md_t449; md_t450; md_t451; md_t452; md_t453; md_t454; md_t455; md_t456; md_t457; md_t458; md_t459; md_t460; md_t461; md_t462; md_t463; md_t464; md_t465; md_t466; md_t467; md_t468; md_t469; md_t470; md_t471; md_t472; md_t473; md_t474; md_t475; md_t476; md_t477; md_t478; md_t479; md_t480; md_t481; md_t482; md_t483; md_t484; md_t485; md_t486; md_t487; md_t488; md_t489; md_t490; md_t491; md_t492; md_t493; md_t494; md_t495; md_t496; md_t497; md_t498; md_t499; md_t500; md_t501; md_t502; md_t503; md_t504; md_t505; md_t506; md_t507; md_t508; md_t509; md_t510; md_t511; md_t512; md_t513; md_t514; md_t515; md_t516; md_t517; md_t518; md_t519; md_t520; md_t521; md_t522; md_t523; md_t524; md_t525; md_t526; md_t527; md_t528; md_t529; md_t530; md_t531; md_t532; md_t533; md_t534; md_t535; md_t536; md_t537; md_t538; md_t539; md_t540; md_t541; md_t542; md_t543; md_t544; md_t545; md_t546; md_t547; md_t548; md_t549; md_t550; md_t551; md_t552; md_t553; md_t554; md_t555; md_t556; md_t557; md_t558; md_t559; md_t560; md_t561; md_t562; md_t563; md_t564; md_t565; md_t566; md_t567; md_t568; md_t569; md_t570; md_t571; md_t572; md_t573; md_t574; md_t575; md_t576; md_t577; md_t578; md_t579; md_t580; md_t581; md_t582; md_t583; md_t584; md_t585; md_t586; md_t587; md_t588; md_t589; md_t590; md_t591; md_t592; md_t593; md_t594; md_t595; md_t596; md_t597; md_t598; md_t599; md_t600; md_t601; md_t602; md_t603; md_t604; md_t605; md_t606; md_t607; md_t608; md_t609; md_t610; md_t611; md_t612; md_t613; md_t614; md_t615; md_t616; md_t617; md_t618; md_t619; md_t620; md_t621; md_t622; md_t623; md_t624; md_t625; md_t626; md_t627; md_t628; md_t629; md_t630; md_t631; md_t632; md_t633; md_t634; md_t635; md_t636; md_t637; md_t638; md_t639; md_t640; md_t641; md_t642; md_t643; md_t644; md_t645; md_t646; md_t647; md_t648; md_t649; md_t650; md_t651; md_t652; md_t653; md_t654; md_t655; md_t656; md_t657; md_t658; md_t659; md_t660; md_t661; md_t662; md_t663; md_t664; md_t665; md_t666; md_t667; md_t668; md_t669; md_t670; md_t671; md_t672; md_t673; md_t674; md_t675; md_t676; md_t677; md_t678; md_t679; md_t680; md_t681; md_t682; md_t683; md_t684; md_t685; md_t686; md_t687; md_t688; md_t689; md_t690; md_t691; md_t692; md_t693; md_t694; md_t695; md_t696; md_t697; md_t698; md_t699; md_t700; md_t701; md_t702; md_t703; md_t704; md_t705; md_t706; md_t707; md_t708; md_t709; md_t710; md_t711; md_t712; md_t713; md_t714; md_t715; md_t716; md_t717; md_t718; md_t719; md_t720; md_t721; md_t722; md_t723; md_t724; md_t725; md_t726; md_t727; md_t728; md_t729; md_t730; md_t731; md_t732; md_t733; md_t734; md_t735; md_t736; md_t737; md_t738; md_t739; md_t740; md_t741; md_t742; md_t743; md_t744; md_t745; md_t746; md_t747; md_t748; md_t749; md_t750; md_t751; md_t752; md_t753; md_t754; md_t755; md_t756; md_t757; md_t758; md_t759; md_t760; md_t761; md_t762; md_t763; md_t764; md_t765; md_t766; md_t767; md_t768; md_t769; md_t770; md_t771; md_t772; md_t773; md_t774; md_t775; md_t776; md_t777; md_t778; md_t779; md_t780; md_t781; md_t782; md_t783; md_t784; md_t785; md_t786; md_t787; md_t788; md_t789; md_t790; md_t791; md_t792; md_t793; md_t794; md_t795; md_t796; md_t797; md_t798; md_t799; md_t800; md_t801; md_t802; md_t803; md_t804; md_t805; md_t806; md_t807; md_t808; md_t809; md_t810; md_t811; md_t812; md_t813; md_t814; md_t815; md_t816; md_t817; md_t818; md_t819; md_t820; md_t821; md_t822; md_t823; md_t824; md_t825; md_t826; md_t827; md_t828; md_t829; md_t830; md_t831; md_t832; md_t833; md_t834; md_t835; md_t836; md_t837; md_t838; md_t839; md_t840].
Definition md := metadata_of_v14 (MetadataV14 md_types [(Pallet "System"%string [(Constant "Version"%string [32%N; 112%N; 111%N; 108%N; 107%N; 97%N; 100%N; 111%N; 116%N; 60%N; 112%N; 97%N; 114%N; 105%N; 116%N; 121%N; 45%N; 112%N; 111%N; 108%N; 107%N; 97%N; 100%N; 111%N; 116%N; 0%N; 0%N; 0%N; 0%N; 214%N; 36%N; 0%N; 0%N; 0%N; 0%N; 0%N; 0%N; 68%N; 223%N; 106%N; 203%N; 104%N; 153%N; 7%N; 96%N; 155%N; 4%N; 0%N; 0%N; 0%N; 55%N; 227%N; 151%N; 252%N; 124%N; 145%N; 245%N; 228%N; 2%N; 0%N; 0%N; 0%N; 64%N; 254%N; 58%N; 212%N; 1%N; 248%N; 149%N; 154%N; 6%N; 0%N; 0%N; 0%N; 23%N; 166%N; 188%N; 13%N; 0%N; 98%N; 174%N; 179%N; 1%N; 0%N; 0%N; 0%N; 24%N; 239%N; 88%N; 163%N; 182%N; 123%N; 167%N; 112%N; 1%N; 0%N; 0%N; 0%N; 210%N; 188%N; 152%N; 151%N; 238%N; 208%N; 143%N; 21%N; 3%N; 0%N; 0%N; 0%N; 247%N; 139%N; 39%N; 139%N; 229%N; 63%N; 69%N; 76%N; 2%N; 0%N; 0%N; 0%N; 175%N; 44%N; 2%N; 151%N; 162%N; 62%N; 109%N; 61%N; 4%N; 0%N; 0%N; 0%N; 73%N; 234%N; 175%N; 27%N; 84%N; 138%N; 12%N; 176%N; 2%N; 0%N; 0%N; 0%N; 145%N; 213%N; 223%N; 24%N; 176%N; 210%N; 207%N; 88%N; 2%N; 0%N; 0%N; 0%N; 237%N; 153%N; 197%N; 172%N; 178%N; 94%N; 237%N; 245%N; 3%N; 0%N; 0%N; 0%N; 203%N; 202%N; 37%N; 227%N; 159%N; 20%N; 35%N; 135%N; 2%N; 0%N; 0%N; 0%N; 104%N; 122%N; 212%N; 74%N; 211%N; 127%N; 3%N; 194%N; 1%N; 0%N; 0%N; 0%N; 171%N; 60%N; 5%N; 114%N; 41%N; 31%N; 235%N; 139%N; 1%N; 0%N; 0%N; 0%N; 188%N; 157%N; 137%N; 144%N; 79%N; 91%N; 146%N; 63%N; 1%N; 0%N; 0%N; 0%N; 55%N; 200%N; 187%N; 19%N; 80%N; 169%N; 162%N; 168%N; 4%N; 0%N; 0%N; 0%N; 243%N; 255%N; 20%N; 213%N; 171%N; 82%N; 112%N; 89%N; 3%N; 0%N; 0%N; 0%N; 24%N; 0%N; 0%N; 0%N; 0%N] 490%N)]); (Pallet "Scheduler"%string []); (Pallet "Preimage"%string []); (Pallet "Babe"%string []); (Pallet "Timestamp"%string []); (Pallet "Indices"%string []); (Pallet "Balances"%string []); (Pallet "TransactionPayment"%string []); (Pallet "Authorship"%string []); (Pallet "Staking"%string []); (Pallet "Offences"%string []); (Pallet "Historical"%string []); (Pallet "Session"%string []); (Pallet "Grandpa"%string []); (Pallet "ImOnline"%string []); (Pallet "AuthorityDiscovery"%string []); (Pallet "Democracy"%string []); (Pallet "Council"%string []); (Pallet "TechnicalCommittee"%string []); (Pallet "PhragmenElection"%string []); (Pallet "TechnicalMembership"%string []); (Pallet "Treasury"%string []); (Pallet "ConvictionVoting"%string []); (Pallet "Referenda"%string []); (Pallet "Whitelist"%string []); (Pallet "Claims"%string []); (Pallet "Vesting"%string []); (Pallet "Utility"%string []); (Pallet "Identity"%string []); (Pallet "Proxy"%string []); (Pallet "Multisig"%string []); (Pallet "Bounties"%string []); (Pallet "ChildBounties"%string []); (Pallet "Tips"%string []); (Pallet "ElectionProviderMultiPhase"%string []); (Pallet "VoterList"%string []); (Pallet "NominationPools"%string []); (Pallet "FastUnstake"%string []); (Pallet "ParachainsOrigin"%string []); (Pallet "Configuration"%string []); (Pallet "ParasShared"%string []); (Pallet "ParaInclusion"%string []); (Pallet "ParaInherent"%string []); (Pallet "ParaScheduler"%string []); (Pallet "Paras"%string []); (Pallet "Initializer"%string []); (Pallet "Dmp"%string []); (Pallet "Hrmp"%string []); (Pallet "ParaSessionInfo"%string []); (Pallet "ParasDisputes"%string []); (Pallet "ParasSlashing"%string []); (Pallet "Registrar"%string []); (Pallet "Slots"%string []); (Pallet "Auctions"%string []); (Pallet "Crowdloan"%string []); (Pallet "XcmPallet"%string []); (Pallet "MessageQueue"%string [])] 828%N 4%N [(ExtMeta "CheckNonZeroSender"%string 830%N 34%N); (ExtMeta "CheckSpecVersion"%string 831%N 4%N); (ExtMeta "CheckTxVersion"%string 832%N 4%N); (ExtMeta "CheckGenesis"%string 833%N 12%N); (ExtMeta "CheckMortality"%string 834%N 12%N); (ExtMeta "CheckNonce"%string 836%N 34%N); (ExtMeta "CheckWeight"%string 837%N 34%N); (ExtMeta "ChargeTransactionPayment"%string 838%N 34%N); (ExtMeta "PrevalidateAttests"%string 839%N 34%N)]).
Definition nv := match m_spec_name_version md with inl x => x | inr _ => SpecNameVersion "" [] end.
Example tr_8_call :
 match (parse_transaction (slice_buffer (unhex "641a04100000083434000008383800000c31333200000c313736d503040b63ce64c10c05d62400001800000091b171bb158e2d3848fa23a9f1c25182fb8e20313b2c1eb49219da7a70ce90c391b171bb158e2d3848fa23a9f1c25182fb8e20313b2c1eb49219da7a70ce90c3"%string)) md (Some (unhex "91b171bb158e2d3848fa23a9f1c25182fb8e20313b2c1eb49219da7a70ce90c3")) 0 tt) with (Ok (TransactionParsed (inl c) x), _, _) => show_all bs (card_call b58 idn (ShortSpecs 0%N 10%N "DOT") (string_of_bytes (spec_name nv)) c 0) | _ => "FAIL"%string end
 = "Pallet: Utility
  Call: force_batch
    Field Name: calls
      Sequence: 4 element(s)
        Pallet: System
          Call: remark
            Field Name: remark
              Text: 44
        Pallet: System
          Call: remark
            Field Name: remark
              Text: 88
        Pallet: System
          Call: remark
            Field Name: remark
              Text: 132
        Pallet: System
          Call: remark
            Field Name: remark
              Text: 176"%string.
Proof. vm_compute. reflexivity. Qed.
Example tr_8_extensions :
 match (parse_transaction (slice_buffer (unhex "641a04100000083434000008383800000c31333200000c313736d503040b63ce64c10c05d62400001800000091b171bb158e2d3848fa23a9f1c25182fb8e20313b2c1eb49219da7a70ce90c391b171bb158e2d3848fa23a9f1c25182fb8e20313b2c1eb49219da7a70ce90c3"%string)) md (Some (unhex "91b171bb158e2d3848fa23a9f1c25182fb8e20313b2c1eb49219da7a70ce90c3")) 0 tt) with (Ok (TransactionParsed (inl c) x), _, _) => show_all bs (card_extensions b58 idn (ShortSpecs 0%N 10%N "DOT") (string_of_bytes (spec_name nv)) x) | _ => "FAIL"%string end
 = "Era: Mortal, phase: 61, period: 64
Nonce: 1
Tip: 555.2342355555 DOT
Chain: polkadot9430
Tx Version: 24
Genesis Hash: 91b171bb158e2d3848fa23a9f1c25182fb8e20313b2c1eb49219da7a70ce90c3
Block Hash: 91b171bb158e2d3848fa23a9f1c25182fb8e20313b2c1eb49219da7a70ce90c3"%string.
Proof. vm_compute. reflexivity. Qed.
Example tr_9_call :
 match (parse_transaction_unmarked (slice_buffer (unhex "6301039508080401380074063d03aeada02cc26977d0ab68927e12516a3287a3c72cc937981d1e7c9ade0cf91f0300eda947e425ea94b7642cc2d3939d30207e457a92049804580804044e7eca0311ba0594016808003d3d080701ada1020180d1043985798860eb63723790bda41de487e0730251717471e9660ab0aa5a6a65dde70807042c021673020808049d604a87138c0704aa060102ab90ebe5eeaf95088767ace3e78d04147180b016cf193a542fe5c9a4291e70784f6d64fb705349e4a361c453b28d18ba43b8e0bee72dad92845acbe281f21ea6c270f553481dc183b60ca8c1803544f33691adef9c5d4f807827e288143f4af2aa1c2c0b9e6087db1decedb85e2774f792c9bbc61ed85f031d11d175f93ecf7d030800a90307010107d5ebd78dfce4bdb789c0e310e2172b3f3a13ec09e39ba8b644e368816bd7acd57f10030025867d9fc900c0f7afe1ce1fc756f152b3f38e5a010001dec102c8abb0449d91dd617be6a7dc4d7ea0ae7f7cebaf1c9e4c9f0a64716c3d007800000000d50391010b63ce64c10c05d62400001800000091b171bb158e2d3848fa23a9f1c25182fb8e20313b2c1eb49219da7a70ce90c391b171bb158e2d3848fa23a9f1c25182fb8e20313b2c1eb49219da7a70ce90c3"%string)) md (Some (unhex "91b171bb158e2d3848fa23a9f1c25182fb8e20313b2c1eb49219da7a70ce90c3")) 0 tt) with (Ok (c, x), _, _) => show_all bs (card_call b58 idn (ShortSpecs 0%N 10%N "DOT") (string_of_bytes (spec_name nv)) c 0) | _ => "FAIL"%string end
 = "Pallet: XcmPallet
  Call: teleport_assets
    Field Name: dest
      Enum
        Enum Variant Name: V3
          Struct: 2 field(s)
            Field Name: parents
              u8: 149
            Field Name: interior
              Enum
                Enum Variant Name: X8
                  Field Number: 1
                    Enum
                      Enum Variant Name: Plurality
                        Field Name: id
                          Enum
                            Enum Variant Name: Technical
                        Field Name: part
                          Enum
                            Enum Variant Name: Members
                              Field Name: count
                                u32: 14
                  Field Number: 2
                    Enum
                      Enum Variant Name: Parachain
                        u32: 29
                  Field Number: 3
                    Enum
                      Enum Variant Name: GeneralKey
                        Field Name: length
                          u8: 61
                        Field Name: data
                          Sequence u8: 03aeada02cc26977d0ab68927e12516a3287a3c72cc937981d1e7c9ade0cf91f
                  Field Number: 4
                    Enum
                      Enum Variant Name: AccountKey20
                        Field Name: network
                          Enum
                            Enum Variant Name: None
                        Field Name: key
                          Sequence u8: eda947e425ea94b7642cc2d3939d30207e457a92
                  Field Number: 5
                    Enum
                      Enum Variant Name: PalletInstance
                        u8: 152
                  Field Number: 6
                    Enum
                      Enum Variant Name: PalletInstance
                        u8: 88
                  Field Number: 7
                    Enum
                      Enum Variant Name: Plurality
                        Field Name: id
                          Enum
                            Enum Variant Name: Technical
                        Field Name: part
                          Enum
                            Enum Variant Name: MoreThanProportion
                              Field Name: nom
                                u32: 15900563
                              Field Name: denom
                                u32: 11908
                  Field Number: 8
                    Enum
                      Enum Variant Name: GeneralIndex
                        u128: 37
    Field Name: beneficiary
      Enum
        Enum Variant Name: V2
          Struct: 2 field(s)
            Field Name: parents
              u8: 104
            Field Name: interior
              Enum
                Enum Variant Name: X8
                  Field Number: 1
                    Enum
                      Enum Variant Name: Parachain
                        u32: 3919
                  Field Number: 2
                    Enum
                      Enum Variant Name: Plurality
                        Field Name: id
                          Enum
                            Enum Variant Name: Defense
                        Field Name: part
                          Enum
                            Enum Variant Name: Members
                              Field Name: count
                                u32: 10347
                  Field Number: 3
                    Enum
                      Enum Variant Name: AccountIndex64
                        Field Name: network
                          Enum
                            Enum Variant Name: Named
                              Sequence u8: d1043985798860eb63723790bda41de487e0730251717471e9660ab0aa5a6a65
                        Field Name: index
                          u64: 14839
                  Field Number: 4
                    Enum
                      Enum Variant Name: Plurality
                        Field Name: id
                          Enum
                            Enum Variant Name: Defense
                        Field Name: part
                          Enum
                            Enum Variant Name: MoreThanProportion
                              Field Name: nom
                                u32: 11
                              Field Name: denom
                                u32: 10274176
                  Field Number: 5
                    Enum
                      Enum Variant Name: Plurality
                        Field Name: id
                          Enum
                            Enum Variant Name: Administration
                        Field Name: part
                          Enum
                            Enum Variant Name: MoreThanProportion
                              Field Name: nom
                                u32: 6183
                              Field Name: denom
                                u32: 587522514
                  Field Number: 6
                    Enum
                      Enum Variant Name: OnlyChild
                  Field Number: 7
                    Enum
                      Enum Variant Name: PalletInstance
                        u8: 170
                  Field Number: 8
                    Enum
                      Enum Variant Name: GeneralKey
                        Sequence u8: ab90ebe5eeaf95088767ace3e78d04147180b016cf193a542fe5c9a4291e70784f6d64fb705349e4a361c453b28d18ba43b8e0bee72dad92845acbe281f21ea6c270f553481dc183b60ca8c1803544f33691adef9c5d4f807827e288143f4af2aa1c2c0b9e6087db1decedb85e2774f792c9bbc61ed85f031d11d175f93ecf7d
    Field Name: assets
      Enum
        Enum Variant Name: V3
          Sequence: 2 element(s)
            Struct: 2 field(s)
              Field Name: id
                Enum
                  Enum Variant Name: Concrete
                    Struct: 2 field(s)
                      Field Name: parents
                        u8: 169
                      Field Name: interior
                        Enum
                          Enum Variant Name: X3
                            Field Number: 1
                              Enum
                                Enum Variant Name: OnlyChild
                            Field Number: 2
                              Enum
                                Enum Variant Name: AccountId32
                                  Field Name: network
                                    Enum
                                      Enum Variant Name: Some
                                        Enum
                                          Enum Variant Name: Ethereum
                                            Field Name: chain_id
                                              u64: 15093
                                  Field Name: id
                                    Sequence u8: d78dfce4bdb789c0e310e2172b3f3a13ec09e39ba8b644e368816bd7acd57f10
                            Field Number: 3
                              Enum
                                Enum Variant Name: AccountKey20
                                  Field Name: network
                                    Enum
                                      Enum Variant Name: None
                                  Field Name: key
                                    Sequence u8: 25867d9fc900c0f7afe1ce1fc756f152b3f38e5a
              Field Name: fun
                Enum
                  Enum Variant Name: NonFungible
                    Enum
                      Enum Variant Name: Undefined
            Struct: 2 field(s)
              Field Name: id
                Enum
                  Enum Variant Name: Abstract
                    Sequence u8: dec102c8abb0449d91dd617be6a7dc4d7ea0ae7f7cebaf1c9e4c9f0a64716c3d
              Field Name: fun
                Enum
                  Enum Variant Name: Fungible
                    u128: 30
    Field Name: fee_asset_item
      u32: 0"%string.
Proof. vm_compute. reflexivity. Qed.
Example tr_9_extensions :
 match (parse_transaction_unmarked (slice_buffer (unhex "6301039508080401380074063d03aeada02cc26977d0ab68927e12516a3287a3c72cc937981d1e7c9ade0cf91f0300eda947e425ea94b7642cc2d3939d30207e457a92049804580804044e7eca0311ba0594016808003d3d080701ada1020180d1043985798860eb63723790bda41de487e0730251717471e9660ab0aa5a6a65dde70807042c021673020808049d604a87138c0704aa060102ab90ebe5eeaf95088767ace3e78d04147180b016cf193a542fe5c9a4291e70784f6d64fb705349e4a361c453b28d18ba43b8e0bee72dad92845acbe281f21ea6c270f553481dc183b60ca8c1803544f33691adef9c5d4f807827e288143f4af2aa1c2c0b9e6087db1decedb85e2774f792c9bbc61ed85f031d11d175f93ecf7d030800a90307010107d5ebd78dfce4bdb789c0e310e2172b3f3a13ec09e39ba8b644e368816bd7acd57f10030025867d9fc900c0f7afe1ce1fc756f152b3f38e5a010001dec102c8abb0449d91dd617be6a7dc4d7ea0ae7f7cebaf1c9e4c9f0a64716c3d007800000000d50391010b63ce64c10c05d62400001800000091b171bb158e2d3848fa23a9f1c25182fb8e20313b2c1eb49219da7a70ce90c391b171bb158e2d3848fa23a9f1c25182fb8e20313b2c1eb49219da7a70ce90c3"%string)) md (Some (unhex "91b171bb158e2d3848fa23a9f1c25182fb8e20313b2c1eb49219da7a70ce90c3")) 0 tt) with (Ok (c, x), _, _) => show_all bs (card_extensions b58 idn (ShortSpecs 0%N 10%N "DOT") (string_of_bytes (spec_name nv)) x) | _ => "FAIL"%string end
 = "Era: Mortal, phase: 61, period: 64
Nonce: 100
Tip: 555.2342355555 DOT
Chain: polkadot9430
Tx Version: 24
Genesis Hash: 91b171bb158e2d3848fa23a9f1c25182fb8e20313b2c1eb49219da7a70ce90c3
Block Hash: 91b171bb158e2d3848fa23a9f1c25182fb8e20313b2c1eb49219da7a70ce90c3"%string.
Proof. vm_compute. reflexivity. Qed.
Example tr_11_call :
 match (parse_transaction_unmarked (slice_buffer (unhex "15000600a9569408db2bf9dd45318e13074b02ffce42dcf91b89cbef0fbe92191eb9627f019b02f1160003792192b533ff24d1ac92297d3905d02aac6dc63c10d62400001800000091b171bb158e2d3848fa23a9f1c25182fb8e20313b2c1eb49219da7a70ce90c391b171bb158e2d3848fa23a9f1c25182fb8e20313b2c1eb49219da7a70ce90c3"%string)) md (Some (unhex "91b171bb158e2d3848fa23a9f1c25182fb8e20313b2c1eb49219da7a70ce90c3")) 0 tt) with (Ok (c, x), _, _) => show_all bs (card_call b58 idn (ShortSpecs 0%N 10%N "DOT") (string_of_bytes (spec_name nv)) c 0) | _ => "FAIL"%string end
 = "Pallet: Referenda
  Call: submit
    Field Name: proposal_origin
      Enum
        Enum Variant Name: Void
          Enum With No Variants
    Field Name: proposal
      Enum
        Enum Variant Name: Legacy
          Field Name: hash
            H256: a9569408db2bf9dd45318e13074b02ffce42dcf91b89cbef0fbe92191eb9627f
    Field Name: enactment_moment
      Enum
        Enum Variant Name: After
          u32: 384893595"%string.
Proof. vm_compute. reflexivity. Qed.
Example tr_11_extensions :
 match (parse_transaction_unmarked (slice_buffer (unhex "15000600a9569408db2bf9dd45318e13074b02ffce42dcf91b89cbef0fbe92191eb9627f019b02f1160003792192b533ff24d1ac92297d3905d02aac6dc63c10d62400001800000091b171bb158e2d3848fa23a9f1c25182fb8e20313b2c1eb49219da7a70ce90c391b171bb158e2d3848fa23a9f1c25182fb8e20313b2c1eb49219da7a70ce90c3"%string)) md (Some (unhex "91b171bb158e2d3848fa23a9f1c25182fb8e20313b2c1eb49219da7a70ce90c3")) 0 tt) with (Ok (c, x), _, _) => show_all bs (card_extensions b58 idn (ShortSpecs 0%N 10%N "DOT") (string_of_bytes (spec_name nv)) x) | _ => "FAIL"%string end
 = "Era: Immortal
Nonce: 3046252921
Tip: 2158321035032515.9632029318439228220671 TDOT
Chain: polkadot9430
Tx Version: 24
Genesis Hash: 91b171bb158e2d3848fa23a9f1c25182fb8e20313b2c1eb49219da7a70ce90c3
Block Hash: 91b171bb158e2d3848fa23a9f1c25182fb8e20313b2c1eb49219da7a70ce90c3"%string.
Proof. vm_compute. reflexivity. Qed.
