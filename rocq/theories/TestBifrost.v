(** GENERATED from /repo/for_tests/bifrost982 and /repo/src/tests.rs: the tests of the
    repository on this metadata replayed on the model (tests of the fidelity of the
    model, not proofs of properties). Identicons are not compared. *)
From Verif Require Import Base Compact Types Indicators Decode Sign Meta Balance Cards Unchecked.
From Verif Require Address.
Definition b58 := Address.address.
Definition idn (b : bytes) : bytes := [].
Definition bs := Address.bits_text.
Fixpoint unhex (s : string) : bytes :=
  let v c := let n := N_of_ascii c in if (n <? 58)%N then (n - 48)%N else (n - 87)%N in
  match s with String a (String b r) => (16 * v a + v b)%N :: unhex r | _ => [] end.
Definition md_t0 : ty := (Ty ["sp_core"%string; "crypto"%string; "AccountId32"%string] [] (TComposite [(Field None 1%N (Some "[u8; 32]"%string) [])]) []).
Definition md_t1 : ty := (Ty [] [] (TArray 32%N 2%N) []).
Definition md_t2 : ty := (Ty [] [] (TPrimitive (PrU U8)) []).
Definition md_t3 : ty := (Ty ["frame_system"%string; "AccountInfo"%string] [("Index"%string,(Some 4%N)); ("AccountData"%string,(Some 5%N))] (TComposite [(Field (Some "nonce"%string) 4%N (Some "Index"%string) []); (Field (Some "consumers"%string) 4%N (Some "RefCount"%string) []); (Field (Some "providers"%string) 4%N (Some "RefCount"%string) []); (Field (Some "sufficients"%string) 4%N (Some "RefCount"%string) []); (Field (Some "data"%string) 5%N (Some "AccountData"%string) [])]) []).
Definition md_t4 : ty := (Ty [] [] (TPrimitive (PrU U32)) []).
Definition md_t5 : ty := (Ty ["pallet_balances"%string; "types"%string; "AccountData"%string] [("Balance"%string,(Some 6%N))] (TComposite [(Field (Some "free"%string) 6%N (Some "Balance"%string) []); (Field (Some "reserved"%string) 6%N (Some "Balance"%string) []); (Field (Some "frozen"%string) 6%N (Some "Balance"%string) []); (Field (Some "flags"%string) 7%N (Some "ExtraFlags"%string) [])]) []).
Definition md_t6 : ty := (Ty [] [] (TPrimitive (PrU U128)) []).
Definition md_t7 : ty := (Ty ["pallet_balances"%string; "types"%string; "ExtraFlags"%string] [] (TComposite [(Field None 6%N (Some "u128"%string) [])]) []).
Definition md_t8 : ty := (Ty ["frame_support"%string; "dispatch"%string; "PerDispatchClass"%string] [("T"%string,(Some 9%N))] (TComposite [(Field (Some "normal"%string) 9%N (Some "T"%string) []); (Field (Some "operational"%string) 9%N (Some "T"%string) []); (Field (Some "mandatory"%string) 9%N (Some "T"%string) [])]) []).
Definition md_t9 : ty := (Ty ["sp_weights"%string; "weight_v2"%string; "Weight"%string] [] (TComposite [(Field (Some "ref_time"%string) 10%N (Some "u64"%string) []); (Field (Some "proof_size"%string) 10%N (Some "u64"%string) [])]) []).
Definition md_t10 : ty := (Ty [] [] (TCompact 11%N) []).
Definition md_t11 : ty := (Ty [] [] (TPrimitive (PrU U64)) []).
Definition md_t12 : ty := (Ty ["primitive_types"%string; "H256"%string] [] (TComposite [(Field None 1%N (Some "[u8; 32]"%string) [])]) []).
Definition md_t13 : ty := (Ty [] [] (TSequence 2%N) []).
Definition md_t14 : ty := (Ty ["sp_runtime"%string; "generic"%string; "digest"%string; "Digest"%string] [] (TComposite [(Field (Some "logs"%string) 15%N (Some "Vec<DigestItem>"%string) [])]) []).
Definition md_t15 : ty := (Ty [] [] (TSequence 16%N) []).
Definition md_t16 : ty := (Ty ["sp_runtime"%string; "generic"%string; "digest"%string; "DigestItem"%string] [] (TVariant [(Variant "PreRuntime"%string [(Field None 17%N (Some "ConsensusEngineId"%string) []); (Field None 13%N (Some "Vec<u8>"%string) [])] 6%N []); (Variant "Consensus"%string [(Field None 17%N (Some "ConsensusEngineId"%string) []); (Field None 13%N (Some "Vec<u8>"%string) [])] 4%N []); (Variant "Seal"%string [(Field None 17%N (Some "ConsensusEngineId"%string) []); (Field None 13%N (Some "Vec<u8>"%string) [])] 5%N []); (Variant "Other"%string [(Field None 13%N (Some "Vec<u8>"%string) [])] 0%N []); (Variant "RuntimeEnvironmentUpdated"%string [] 8%N [])]) []).
Definition md_t17 : ty := (Ty [] [] (TArray 4%N 2%N) []).
Definition md_t18 : ty := (Ty [] [] (TSequence 19%N) []).
Definition md_t19 : ty := (Ty ["frame_system"%string; "EventRecord"%string] [("E"%string,(Some 20%N)); ("T"%string,(Some 12%N))] (TComposite [(Field (Some "phase"%string) 433%N (Some "Phase"%string) []); (Field (Some "event"%string) 20%N (Some "E"%string) []); (Field (Some "topics"%string) 264%N (Some "Vec<T>"%string) [])]) []).
Definition md_t20 : ty := (Ty ["bifrost_polkadot_runtime"%string; "RuntimeEvent"%string] [] (TVariant [(Variant "System"%string [(Field None 21%N (Some "frame_system::Event<Runtime>"%string) [])] 0%N []); (Variant "Indices"%string [(Field None 30%N (Some "pallet_indices::Event<Runtime>"%string) [])] 2%N []); (Variant "ParachainSystem"%string [(Field None 31%N (Some "cumulus_pallet_parachain_system::Event<Runtime>"%string) [])] 5%N []); (Variant "Balances"%string [(Field None 33%N (Some "pallet_balances::Event<Runtime>"%string) [])] 10%N []); (Variant "TransactionPayment"%string [(Field None 35%N (Some "pallet_transaction_payment::Event<Runtime>"%string) [])] 11%N []); (Variant "CollatorSelection"%string [(Field None 36%N (Some "pallet_collator_selection::Event<Runtime>"%string) [])] 21%N []); (Variant "Session"%string [(Field None 38%N (Some "pallet_session::Event"%string) [])] 22%N []); (Variant "Democracy"%string [(Field None 39%N (Some "pallet_democracy::Event<Runtime>"%string) [])] 30%N []); (Variant "Council"%string [(Field None 44%N (Some "pallet_collective::Event<Runtime, pallet_collective::Instance1>"%string) [])] 31%N []); (Variant "TechnicalCommittee"%string [(Field None 48%N (Some "pallet_collective::Event<Runtime, pallet_collective::Instance2>"%string) [])] 32%N []); (Variant "PhragmenElection"%string [(Field None 49%N (Some "pallet_elections_phragmen::Event<Runtime>"%string) [])] 33%N []); (Variant "CouncilMembership"%string [(Field None 52%N (Some "pallet_membership::Event<Runtime, pallet_membership::Instance1>"%string) [])] 34%N []); (Variant "TechnicalMembership"%string [(Field None 53%N (Some "pallet_membership::Event<Runtime, pallet_membership::Instance2>"%string) [])] 35%N []); (Variant "ConvictionVoting"%string [(Field None 54%N (Some "pallet_conviction_voting::Event<Runtime>"%string) [])] 36%N []); (Variant "Referenda"%string [(Field None 55%N (Some "pallet_referenda::Event<Runtime>"%string) [])] 37%N []); (Variant "Whitelist"%string [(Field None 372%N (Some "pallet_whitelist::Event<Runtime>"%string) [])] 39%N []); (Variant "XcmpQueue"%string [(Field None 377%N (Some "cumulus_pallet_xcmp_queue::Event<Runtime>"%string) [])] 40%N []); (Variant "PolkadotXcm"%string [(Field None 378%N (Some "pallet_xcm::Event<Runtime>"%string) [])] 41%N []); (Variant "CumulusXcm"%string [(Field None 380%N (Some "cumulus_pallet_xcm::Event<Runtime>"%string) [])] 42%N []); (Variant "DmpQueue"%string [(Field None 381%N (Some "cumulus_pallet_dmp_queue::Event<Runtime>"%string) [])] 43%N []); (Variant "Utility"%string [(Field None 382%N (Some "pallet_utility::Event"%string) [])] 50%N []); (Variant "Scheduler"%string [(Field None 383%N (Some "pallet_scheduler::Event<Runtime>"%string) [])] 51%N []); (Variant "Proxy"%string [(Field None 384%N (Some "pallet_proxy::Event<Runtime>"%string) [])] 52%N []); (Variant "Multisig"%string [(Field None 385%N (Some "pallet_multisig::Event<Runtime>"%string) [])] 53%N []); (Variant "Identity"%string [(Field None 386%N (Some "pallet_identity::Event<Runtime>"%string) [])] 54%N []); (Variant "Vesting"%string [(Field None 387%N (Some "pallet_vesting::Event<Runtime>"%string) [])] 60%N []); (Variant "Treasury"%string [(Field None 388%N (Some "pallet_treasury::Event<Runtime>"%string) [])] 61%N []); (Variant "Bounties"%string [(Field None 389%N (Some "pallet_bounties::Event<Runtime>"%string) [])] 62%N []); (Variant "Tips"%string [(Field None 390%N (Some "pallet_tips::Event<Runtime>"%string) [])] 63%N []); (Variant "Preimage"%string [(Field None 391%N (Some "pallet_preimage::Event<Runtime>"%string) [])] 64%N []); (Variant "XTokens"%string [(Field None 392%N (Some "orml_xtokens::Event<Runtime>"%string) [])] 70%N []); (Variant "Tokens"%string [(Field None 393%N (Some "orml_tokens::Event<Runtime>"%string) [])] 71%N []); (Variant "UnknownTokens"%string [(Field None 394%N (Some "orml_unknown_tokens::Event"%string) [])] 73%N []); (Variant "OrmlXcm"%string [(Field None 395%N (Some "orml_xcm::Event<Runtime>"%string) [])] 74%N []); (Variant "ZenlinkProtocol"%string [(Field None 396%N (Some "zenlink_protocol::Event<Runtime>"%string) [])] 80%N []); (Variant "MerkleDistributor"%string [(Field None 397%N (Some "merkle_distributor::Event<Runtime>"%string) [])] 81%N []); (Variant "FlexibleFee"%string [(Field None 398%N (Some "bifrost_flexible_fee::Event<Runtime>"%string) [])] 100%N []); (Variant "Salp"%string [(Field None 400%N (Some "bifrost_salp::Event<Runtime>"%string) [])] 105%N []); (Variant "CallSwitchgear"%string [(Field None 401%N (Some "bifrost_call_switchgear::Event<Runtime>"%string) [])] 112%N []); (Variant "AssetRegistry"%string [(Field None 402%N (Some "bifrost_asset_registry::Event<Runtime>"%string) [])] 114%N []); (Variant "VtokenMinting"%string [(Field None 404%N (Some "bifrost_vtoken_minting::Event<Runtime>"%string) [])] 115%N []); (Variant "Slp"%string [(Field None 405%N (Some "bifrost_slp::Event<Runtime>"%string) [])] 116%N []); (Variant "XcmInterface"%string [(Field None 415%N (Some "xcm_interface::Event<Runtime>"%string) [])] 117%N []); (Variant "TokenConversion"%string [(Field None 416%N (Some "bifrost_vstoken_conversion::Event<Runtime>"%string) [])] 118%N []); (Variant "Farming"%string [(Field None 417%N (Some "bifrost_farming::Event<Runtime>"%string) [])] 119%N []); (Variant "SystemStaking"%string [(Field None 418%N (Some "bifrost_system_staking::Event<Runtime>"%string) [])] 120%N []); (Variant "SystemMaker"%string [(Field None 419%N (Some "bifrost_system_maker::Event<Runtime>"%string) [])] 121%N []); (Variant "FeeShare"%string [(Field None 420%N (Some "bifrost_fee_share::Event<Runtime>"%string) [])] 122%N []); (Variant "CrossInOut"%string [(Field None 423%N (Some "bifrost_cross_in_out::Event<Runtime>"%string) [])] 123%N []); (Variant "VeMinting"%string [(Field None 424%N (Some "bifrost_ve_minting::Event<Runtime>"%string) [])] 124%N []); (Variant "Slpx"%string [(Field None 426%N (Some "bifrost_slpx::Event<Runtime>"%string) [])] 125%N []); (Variant "FellowshipCollective"%string [(Field None 427%N (Some "pallet_ranked_collective::Event<Runtime, pallet_ranked_collective::
Instance1>"%string) [])] 126%N []); (Variant "FellowshipReferenda"%string [(Field None 430%N (Some "pallet_referenda::Event<Runtime, pallet_referenda::Instance2>"%string) [])] 127%N []); (Variant "StableAsset"%string [(Field None 431%N (Some "nutsfinance_stable_asset::Event<Runtime>"%string) [])] 128%N []); (Variant "VtokenVoting"%string [(Field None 432%N (Some "bifrost_vtoken_voting::Event<Runtime>"%string) [])] 130%N [])]) []).
Definition md_t21 : ty := (Ty ["frame_system"%string; "pallet"%string; "Event"%string] [("T"%string,None)] (TVariant [(Variant "ExtrinsicSuccess"%string [(Field (Some "dispatch_info"%string) 22%N (Some "DispatchInfo"%string) [])] 0%N ["An extrinsic completed successfully."%string]); (Variant "ExtrinsicFailed"%string [(Field (Some "dispatch_error"%string) 25%N (Some "DispatchError"%string) []); (Field (Some "dispatch_info"%string) 22%N (Some "DispatchInfo"%string) [])] 1%N ["An extrinsic failed."%string]); (Variant "CodeUpdated"%string [] 2%N ["`:code` was updated."%string]); (Variant "NewAccount"%string [(Field (Some "account"%string) 0%N (Some "T::AccountId"%string) [])] 3%N ["A new account was created."%string]); (Variant "KilledAccount"%string [(Field (Some "account"%string) 0%N (Some "T::AccountId"%string) [])] 4%N ["An account was reaped."%string]); (Variant "Remarked"%string [(Field (Some "sender"%string) 0%N (Some "T::AccountId"%string) []); (Field (Some "hash"%string) 12%N (Some "T::Hash"%string) [])] 5%N ["On on-chain remark happened."%string])]) ["Event for the System pallet."%string]).
Definition md_t22 : ty := (Ty ["frame_support"%string; "dispatch"%string; "DispatchInfo"%string] [] (TComposite [(Field (Some "weight"%string) 9%N (Some "Weight"%string) []); (Field (Some "class"%string) 23%N (Some "DispatchClass"%string) []); (Field (Some "pays_fee"%string) 24%N (Some "Pays"%string) [])]) []).
Definition md_t23 : ty := (Ty ["frame_support"%string; "dispatch"%string; "DispatchClass"%string] [] (TVariant [(Variant "Normal"%string [] 0%N []); (Variant "Operational"%string [] 1%N []); (Variant "Mandatory"%string [] 2%N [])]) []).
Definition md_t24 : ty := (Ty ["frame_support"%string; "dispatch"%string; "Pays"%string] [] (TVariant [(Variant "Yes"%string [] 0%N []); (Variant "No"%string [] 1%N [])]) []).
Definition md_t25 : ty := (Ty ["sp_runtime"%string; "DispatchError"%string] [] (TVariant [(Variant "Other"%string [] 0%N []); (Variant "CannotLookup"%string [] 1%N []); (Variant "BadOrigin"%string [] 2%N []); (Variant "Module"%string [(Field None 26%N (Some "ModuleError"%string) [])] 3%N []); (Variant "ConsumerRemaining"%string [] 4%N []); (Variant "NoProviders"%string [] 5%N []); (Variant "TooManyConsumers"%string [] 6%N []); (Variant "Token"%string [(Field None 27%N (Some "TokenError"%string) [])] 7%N []); (Variant "Arithmetic"%string [(Field None 28%N (Some "ArithmeticError"%string) [])] 8%N []); (Variant "Transactional"%string [(Field None 29%N (Some "TransactionalError"%string) [])] 9%N []); (Variant "Exhausted"%string [] 10%N []); (Variant "Corruption"%string [] 11%N []); (Variant "Unavailable"%string [] 12%N [])]) []).
Definition md_t26 : ty := (Ty ["sp_runtime"%string; "ModuleError"%string] [] (TComposite [(Field (Some "index"%string) 2%N (Some "u8"%string) []); (Field (Some "error"%string) 17%N (Some "[u8; MAX_MODULE_ERROR_ENCODED_SIZE]"%string) [])]) []).
Definition md_t27 : ty := (Ty ["sp_runtime"%string; "TokenError"%string] [] (TVariant [(Variant "FundsUnavailable"%string [] 0%N []); (Variant "OnlyProvider"%string [] 1%N []); (Variant "BelowMinimum"%string [] 2%N []); (Variant "CannotCreate"%string [] 3%N []); (Variant "UnknownAsset"%string [] 4%N []); (Variant "Frozen"%string [] 5%N []); (Variant "Unsupported"%string [] 6%N []); (Variant "CannotCreateHold"%string [] 7%N []); (Variant "NotExpendable"%string [] 8%N [])]) []).
Definition md_t28 : ty := (Ty ["sp_arithmetic"%string; "ArithmeticError"%string] [] (TVariant [(Variant "Underflow"%string [] 0%N []); (Variant "Overflow"%string [] 1%N []); (Variant "DivisionByZero"%string [] 2%N [])]) []).
Definition md_t29 : ty := (Ty ["sp_runtime"%string; "TransactionalError"%string] [] (TVariant [(Variant "LimitReached"%string [] 0%N []); (Variant "NoLayer"%string [] 1%N [])]) []).
Definition md_t30 : ty := (Ty ["pallet_indices"%string; "pallet"%string; "Event"%string] [("T"%string,None)] (TVariant [(Variant "IndexAssigned"%string [(Field (Some "who"%string) 0%N (Some "T::AccountId"%string) []); (Field (Some "index"%string) 4%N (Some "T::AccountIndex"%string) [])] 0%N ["A account index was assigned."%string]); (Variant "IndexFreed"%string [(Field (Some "index"%string) 4%N (Some "T::AccountIndex"%string) [])] 1%N ["A account index has been freed up (unassigned)."%string]); (Variant "IndexFrozen"%string [(Field (Some "index"%string) 4%N (Some "T::AccountIndex"%string) []); (Field (Some "who"%string) 0%N (Some "T::AccountId"%string) [])] 2%N ["A account index has been frozen to its current account ID."%string])]) ["
			The [event](https://docs.substrate.io/main-docs/build/events-errors/) emitted
			by this pallet.
			"%string]).
Definition md_t31 : ty := (Ty ["cumulus_pallet_parachain_system"%string; "pallet"%string; "Event"%string] [("T"%string,None)] (TVariant [(Variant "ValidationFunctionStored"%string [] 0%N ["The validation function has been scheduled to apply."%string]); (Variant "ValidationFunctionApplied"%string [(Field (Some "relay_chain_block_num"%string) 4%N (Some "RelayChainBlockNumber"%string) [])] 1%N ["The validation function was applied as of the contained relay chain block number."%string]); (Variant "ValidationFunctionDiscarded"%string [] 2%N ["The relay-chain aborted the upgrade process."%string]); (Variant "UpgradeAuthorized"%string [(Field (Some "code_hash"%string) 12%N (Some "T::Hash"%string) [])] 3%N ["An upgrade has been authorized."%string]); (Variant "DownwardMessagesReceived"%string [(Field (Some "count"%string) 4%N (Some "u32"%string) [])] 4%N ["Some downward messages have been received and will be processed."%string]); (Variant "DownwardMessagesProcessed"%string [(Field (Some "weight_used"%string) 9%N (Some "Weight"%string) []); (Field (Some "dmq_head"%string) 12%N (Some "relay_chain::Hash"%string) [])] 5%N ["Downward messages were processed using the given weight."%string]); (Variant "UpwardMessageSent"%string [(Field (Some "message_hash"%string) 32%N (Some "Option<XcmHash>"%string) [])] 6%N ["An upward message was sent to the relay chain."%string])]) ["
			The [event](https://docs.substrate.io/main-docs/build/events-errors/) emitted
			by this pallet.
			"%string]).
Definition md_t32 : ty := (Ty ["Option"%string] [("T"%string,(Some 1%N))] (TVariant [(Variant "None"%string [] 0%N []); (Variant "Some"%string [(Field None 1%N None [])] 1%N [])]) []).
Definition md_t33 : ty := (Ty ["pallet_balances"%string; "pallet"%string; "Event"%string] [("T"%string,None); ("I"%string,None)] (TVariant [(Variant "Endowed"%string [(Field (Some "account"%string) 0%N (Some "T::AccountId"%string) []); (Field (Some "free_balance"%string) 6%N (Some "T::Balance"%string) [])] 0%N ["An account was created with some free balance."%string]); (Variant "DustLost"%string [(Field (Some "account"%string) 0%N (Some "T::AccountId"%string) []); (Field (Some "amount"%string) 6%N (Some "T::Balance"%string) [])] 1%N ["An account was removed whose balance was non-zero but below ExistentialDeposit,"%string; "resulting in an outright loss."%string]); (Variant "Transfer"%string [(Field (Some "from"%string) 0%N (Some "T::AccountId"%string) []); (Field (Some "to"%string) 0%N (Some "T::AccountId"%string) []); (Field (Some "amount"%string) 6%N (Some "T::Balance"%string) [])] 2%N ["Transfer succeeded."%string]); (Variant "BalanceSet"%string [(Field (Some "who"%string) 0%N (Some "T::AccountId"%string) []); (Field (Some "free"%string) 6%N (Some "T::Balance"%string) [])] 3%N ["A balance was set by root."%string]); (Variant "Reserved"%string [(Field (Some "who"%string) 0%N (Some "T::AccountId"%string) []); (Field (Some "amount"%string) 6%N (Some "T::Balance"%string) [])] 4%N ["Some balance was reserved (moved from free to reserved)."%string]); (Variant "Unreserved"%string [(Field (Some "who"%string) 0%N (Some "T::AccountId"%string) []); (Field (Some "amount"%string) 6%N (Some "T::Balance"%string) [])] 5%N ["Some balance was unreserved (moved from reserved to free)."%string]); (Variant "ReserveRepatriated"%string [(Field (Some "from"%string) 0%N (Some "T::AccountId"%string) []); (Field (Some "to"%string) 0%N (Some "T::AccountId"%string) []); (Field (Some "amount"%string) 6%N (Some "T::Balance"%string) []); (Field (Some "destination_status"%string) 34%N (Some "Status"%string) [])] 6%N ["Some balance was moved from the reserve of the first account to the second account."%string; "Final argument indicates the destination balance type."%string]); (Variant "Deposit"%string [(Field (Some "who"%string) 0%N (Some "T::AccountId"%string) []); (Field (Some "amount"%string) 6%N (Some "T::Balance"%string) [])] 7%N ["Some amount was deposited (e.g. for transaction fees)."%string]); (Variant "Withdraw"%string [(Field (Some "who"%string) 0%N (Some "T::AccountId"%string) []); (Field (Some "amount"%string) 6%N (Some "T::Balance"%string) [])] 8%N ["Some amount was withdrawn from the account (e.g. for transaction fees)."%string]); (Variant "Slashed"%string [(Field (Some "who"%string) 0%N (Some "T::AccountId"%string) []); (Field (Some "amount"%string) 6%N (Some "T::Balance"%string) [])] 9%N ["Some amount was removed from the account (e.g. for misbehavior)."%string]); (Variant "Minted"%string [(Field (Some "who"%string) 0%N (Some "T::AccountId"%string) []); (Field (Some "amount"%string) 6%N (Some "T::Balance"%string) [])] 10%N ["Some amount was minted into an account."%string]); (Variant "Burned"%string [(Field (Some "who"%string) 0%N (Some "T::AccountId"%string) []); (Field (Some "amount"%string) 6%N (Some "T::Balance"%string) [])] 11%N ["Some amount was burned from an account."%string]); (Variant "Suspended"%string [(Field (Some "who"%string) 0%N (Some "T::AccountId"%string) []); (Field (Some "amount"%string) 6%N (Some "T::Balance"%string) [])] 12%N ["Some amount was suspended from an account (it can be restored later)."%string]); (Variant "Restored"%string [(Field (Some "who"%string) 0%N (Some "T::AccountId"%string) []); (Field (Some "amount"%string) 6%N (Some "T::Balance"%string) [])] 13%N ["Some amount was restored into an account."%string]); (Variant "Upgraded"%string [(Field (Some "who"%string) 0%N (Some "T::AccountId"%string) [])] 14%N ["An account was upgraded."%string]); (Variant "Issued"%string [(Field (Some "amount"%string) 6%N (Some "T::Balance"%string) [])] 15%N ["Total issuance was increased by `amount`, creating a credit to be balanced."%string]); (Variant "Rescinded"%string [(Field (Some "amount"%string) 6%N (Some "T::Balance"%string) [])] 16%N ["Total issuance was decreased by `amount`, creating a debt to be balanced."%string]); (Variant "Locked"%string [(Field (Some "who"%string) 0%N (Some "T::AccountId"%string) []); (Field (Some "amount"%string) 6%N (Some "T::Balance"%string) [])] 17%N ["Some balance was locked."%string]); (Variant "Unlocked"%string [(Field (Some "who"%string) 0%N (Some "T::AccountId"%string) []); (Field (Some "amount"%string) 6%N (Some "T::Balance"%string) [])] 18%N ["Some balance was unlocked."%string]); (Variant "Frozen"%string [(Field (Some "who"%string) 0%N (Some "T::AccountId"%string) []); (Field (Some "amount"%string) 6%N (Some "T::Balance"%string) [])] 19%N ["Some balance was frozen."%string]); (Variant "Thawed"%string [(Field (Some "who"%string) 0%N (Some "T::AccountId"%string) []); (Field (Some "amount"%string) 6%N (Some "T::Balance"%string) [])] 20%N ["Some balance was thawed."%string])]) ["
			The [event](https://docs.substrate.io/main-docs/build/events-errors/) emitted
			by this pallet.
			"%string]).
Definition md_t34 : ty := (Ty ["frame_support"%string; "traits"%string; "tokens"%string; "misc"%string; "BalanceStatus"%string] [] (TVariant [(Variant "Free"%string [] 0%N []); (Variant "Reserved"%string [] 1%N [])]) []).
Definition md_t35 : ty := (Ty ["pallet_transaction_payment"%string; "pallet"%string; "Event"%string] [("T"%string,None)] (TVariant [(Variant "TransactionFeePaid"%string [(Field (Some "who"%string) 0%N (Some "T::AccountId"%string) []); (Field (Some "actual_fee"%string) 6%N (Some "BalanceOf<T>"%string) []); (Field (Some "tip"%string) 6%N (Some "BalanceOf<T>"%string) [])] 0%N ["A transaction fee `actual_fee`, of which `tip` was added to the minimum inclusion fee,"%string; "has been paid by `who`."%string])]) ["
			The [event](https://docs.substrate.io/main-docs/build/events-errors/) emitted
			by this pallet.
			"%string]).
Definition md_t36 : ty := (Ty ["pallet_collator_selection"%string; "pallet"%string; "Event"%string] [("T"%string,None)] (TVariant [(Variant "NewInvulnerables"%string [(Field (Some "invulnerables"%string) 37%N (Some "Vec<T::AccountId>"%string) [])] 0%N []); (Variant "NewDesiredCandidates"%string [(Field (Some "desired_candidates"%string) 4%N (Some "u32"%string) [])] 1%N []); (Variant "NewCandidacyBond"%string [(Field (Some "bond_amount"%string) 6%N (Some "BalanceOf<T>"%string) [])] 2%N []); (Variant "CandidateAdded"%string [(Field (Some "account_id"%string) 0%N (Some "T::AccountId"%string) []); (Field (Some "deposit"%string) 6%N (Some "BalanceOf<T>"%string) [])] 3%N []); (Variant "CandidateRemoved"%string [(Field (Some "account_id"%string) 0%N (Some "T::AccountId"%string) [])] 4%N [])]) ["
			The [event](https://docs.substrate.io/main-docs/build/events-errors/) emitted
			by this pallet.
			"%string]).
Definition md_t37 : ty := (Ty [] [] (TSequence 0%N) []).
Definition md_t38 : ty := (Ty ["pallet_session"%string; "pallet"%string; "Event"%string] [] (TVariant [(Variant "NewSession"%string [(Field (Some "session_index"%string) 4%N (Some "SessionIndex"%string) [])] 0%N ["New session has happened. Note that the argument is the session index, not the"%string; "block number as the type might suggest."%string])]) ["
			The [event](https://docs.substrate.io/main-docs/build/events-errors/) emitted
			by this pallet.
			"%string]).
Definition md_t39 : ty := (Ty ["pallet_democracy"%string; "pallet"%string; "Event"%string] [("T"%string,None)] (TVariant [(Variant "Proposed"%string [(Field (Some "proposal_index"%string) 4%N (Some "PropIndex"%string) []); (Field (Some "deposit"%string) 6%N (Some "BalanceOf<T>"%string) [])] 0%N ["A motion has been proposed by a public account."%string]); (Variant "Tabled"%string [(Field (Some "proposal_index"%string) 4%N (Some "PropIndex"%string) []); (Field (Some "deposit"%string) 6%N (Some "BalanceOf<T>"%string) [])] 1%N ["A public proposal has been tabled for referendum vote."%string]); (Variant "ExternalTabled"%string [] 2%N ["An external proposal has been tabled."%string]); (Variant "Started"%string [(Field (Some "ref_index"%string) 4%N (Some "ReferendumIndex"%string) []); (Field (Some "threshold"%string) 40%N (Some "VoteThreshold"%string) [])] 3%N ["A referendum has begun."%string]); (Variant "Passed"%string [(Field (Some "ref_index"%string) 4%N (Some "ReferendumIndex"%string) [])] 4%N ["A proposal has been approved by referendum."%string]); (Variant "NotPassed"%string [(Field (Some "ref_index"%string) 4%N (Some "ReferendumIndex"%string) [])] 5%N ["A proposal has been rejected by referendum."%string]); (Variant "Cancelled"%string [(Field (Some "ref_index"%string) 4%N (Some "ReferendumIndex"%string) [])] 6%N ["A referendum has been cancelled."%string]); (Variant "Delegated"%string [(Field (Some "who"%string) 0%N (Some "T::AccountId"%string) []); (Field (Some "target"%string) 0%N (Some "T::AccountId"%string) [])] 7%N ["An account has delegated their vote to another account."%string]); (Variant "Undelegated"%string [(Field (Some "account"%string) 0%N (Some "T::AccountId"%string) [])] 8%N ["An account has cancelled a previous delegation operation."%string]); (Variant "Vetoed"%string [(Field (Some "who"%string) 0%N (Some "T::AccountId"%string) []); (Field (Some "proposal_hash"%string) 12%N (Some "H256"%string) []); (Field (Some "until"%string) 4%N (Some "T::BlockNumber"%string) [])] 9%N ["An external proposal has been vetoed."%string]); (Variant "Blacklisted"%string [(Field (Some "proposal_hash"%string) 12%N (Some "H256"%string) [])] 10%N ["A proposal_hash has been blacklisted permanently."%string]); (Variant "Voted"%string [(Field (Some "voter"%string) 0%N (Some "T::AccountId"%string) []); (Field (Some "ref_index"%string) 4%N (Some "ReferendumIndex"%string) []); (Field (Some "vote"%string) 41%N (Some "AccountVote<BalanceOf<T>>"%string) [])] 11%N ["An account has voted in a referendum"%string]); (Variant "Seconded"%string [(Field (Some "seconder"%string) 0%N (Some "T::AccountId"%string) []); (Field (Some "prop_index"%string) 4%N (Some "PropIndex"%string) [])] 12%N ["An account has secconded a proposal"%string]); (Variant "ProposalCanceled"%string [(Field (Some "prop_index"%string) 4%N (Some "PropIndex"%string) [])] 13%N ["A proposal got canceled."%string]); (Variant "MetadataSet"%string [(Field (Some "owner"%string) 43%N (Some "MetadataOwner"%string) ["Metadata owner."%string]); (Field (Some "hash"%string) 12%N (Some "PreimageHash"%string) ["Preimage hash."%string])] 14%N ["Metadata for a proposal or a referendum has been set."%string]); (Variant "MetadataCleared"%string [(Field (Some "owner"%string) 43%N (Some "MetadataOwner"%string) ["Metadata owner."%string]); (Field (Some "hash"%string) 12%N (Some "PreimageHash"%string) ["Preimage hash."%string])] 15%N ["Metadata for a proposal or a referendum has been cleared."%string]); (Variant "MetadataTransferred"%string [(Field (Some "prev_owner"%string) 43%N (Some "MetadataOwner"%string) ["Previous metadata owner."%string]); (Field (Some "owner"%string) 43%N (Some "MetadataOwner"%string) ["New metadata owner."%string]); (Field (Some "hash"%string) 12%N (Some "PreimageHash"%string) ["Preimage hash."%string])] 16%N ["Metadata has been transferred to new owner."%string])]) ["
			The [event](https://docs.substrate.io/main-docs/build/events-errors/) emitted
			by this pallet.
			"%string]).
Definition md_t40 : ty := (Ty ["pallet_democracy"%string; "vote_threshold"%string; "VoteThreshold"%string] [] (TVariant [(Variant "SuperMajorityApprove"%string [] 0%N []); (Variant "SuperMajorityAgainst"%string [] 1%N []); (Variant "SimpleMajority"%string [] 2%N [])]) []).
Definition md_t41 : ty := (Ty ["pallet_democracy"%string; "vote"%string; "AccountVote"%string] [("Balance"%string,(Some 6%N))] (TVariant [(Variant "Standard"%string [(Field (Some "vote"%string) 42%N (Some "Vote"%string) []); (Field (Some "balance"%string) 6%N (Some "Balance"%string) [])] 0%N []); (Variant "Split"%string [(Field (Some "aye"%string) 6%N (Some "Balance"%string) []); (Field (Some "nay"%string) 6%N (Some "Balance"%string) [])] 1%N [])]) []).
Definition md_t42 : ty := (Ty ["pallet_democracy"%string; "vote"%string; "Vote"%string] [] (TComposite [(Field None 2%N None [])]) []).
Definition md_t43 : ty := (Ty ["pallet_democracy"%string; "types"%string; "MetadataOwner"%string] [] (TVariant [(Variant "External"%string [] 0%N []); (Variant "Proposal"%string [(Field None 4%N (Some "PropIndex"%string) [])] 1%N []); (Variant "Referendum"%string [(Field None 4%N (Some "ReferendumIndex"%string) [])] 2%N [])]) []).
Definition md_t44 : ty := (Ty ["pallet_collective"%string; "pallet"%string; "Event"%string] [("T"%string,None); ("I"%string,None)] (TVariant [(Variant "Proposed"%string [(Field (Some "account"%string) 0%N (Some "T::AccountId"%string) []); (Field (Some "proposal_index"%string) 4%N (Some "ProposalIndex"%string) []); (Field (Some "proposal_hash"%string) 12%N (Some "T::Hash"%string) []); (Field (Some "threshold"%string) 4%N (Some "MemberCount"%string) [])] 0%N ["A motion (given hash) has been proposed (by given account) with a threshold (given"%string; "`MemberCount`)."%string]); (Variant "Voted"%string [(Field (Some "account"%string) 0%N (Some "T::AccountId"%string) []); (Field (Some "proposal_hash"%string) 12%N (Some "T::Hash"%string) []); (Field (Some "voted"%string) 45%N (Some "bool"%string) []); (Field (Some "yes"%string) 4%N (Some "MemberCount"%string) []); (Field (Some "no"%string) 4%N (Some "MemberCount"%string) [])] 1%N ["A motion (given hash) has been voted on by given account, leaving"%string; "a tally (yes votes and no votes given respectively as `MemberCount`)."%string]); (Variant "Approved"%string [(Field (Some "proposal_hash"%string) 12%N (Some "T::Hash"%string) [])] 2%N ["A motion was approved by the required threshold."%string]); (Variant "Disapproved"%string [(Field (Some "proposal_hash"%string) 12%N (Some "T::Hash"%string) [])] 3%N ["A motion was not approved by the required threshold."%string]); (Variant "Executed"%string [(Field (Some "proposal_hash"%string) 12%N (Some "T::Hash"%string) []); (Field (Some "result"%string) 46%N (Some "DispatchResult"%string) [])] 4%N ["A motion was executed; result will be `Ok` if it returned without error."%string]); (Variant "MemberExecuted"%string [(Field (Some "proposal_hash"%string) 12%N (Some "T::Hash"%string) []); (Field (Some "result"%string) 46%N (Some "DispatchResult"%string) [])] 5%N ["A single member did some action; result will be `Ok` if it returned without error."%string]); (Variant "Closed"%string [(Field (Some "proposal_hash"%string) 12%N (Some "T::Hash"%string) []); (Field (Some "yes"%string) 4%N (Some "MemberCount"%string) []); (Field (Some "no"%string) 4%N (Some "MemberCount"%string) [])] 6%N ["A proposal was closed because its threshold was reached or after its duration was up."%string])]) ["
			The [event](https://docs.substrate.io/main-docs/build/events-errors/) emitted
			by this pallet.
			"%string]).
Definition md_t45 : ty := (Ty [] [] (TPrimitive PrBool) []).
Definition md_t46 : ty := (Ty ["Result"%string] [("T"%string,(Some 47%N)); ("E"%string,(Some 25%N))] (TVariant [(Variant "Ok"%string [(Field None 47%N None [])] 0%N []); (Variant "Err"%string [(Field None 25%N None [])] 1%N [])]) []).
Definition md_t47 : ty := (Ty [] [] (TTuple []) []).
Definition md_t48 : ty := (Ty ["pallet_collective"%string; "pallet"%string; "Event"%string] [("T"%string,None); ("I"%string,None)] (TVariant [(Variant "Proposed"%string [(Field (Some "account"%string) 0%N (Some "T::AccountId"%string) []); (Field (Some "proposal_index"%string) 4%N (Some "ProposalIndex"%string) []); (Field (Some "proposal_hash"%string) 12%N (Some "T::Hash"%string) []); (Field (Some "threshold"%string) 4%N (Some "MemberCount"%string) [])] 0%N ["A motion (given hash) has been proposed (by given account) with a threshold (given"%string; "`MemberCount`)."%string]); (Variant "Voted"%string [(Field (Some "account"%string) 0%N (Some "T::AccountId"%string) []); (Field (Some "proposal_hash"%string) 12%N (Some "T::Hash"%string) []); (Field (Some "voted"%string) 45%N (Some "bool"%string) []); (Field (Some "yes"%string) 4%N (Some "MemberCount"%string) []); (Field (Some "no"%string) 4%N (Some "MemberCount"%string) [])] 1%N ["A motion (given hash) has been voted on by given account, leaving"%string; "a tally (yes votes and no votes given respectively as `MemberCount`)."%string]); (Variant "Approved"%string [(Field (Some "proposal_hash"%string) 12%N (Some "T::Hash"%string) [])] 2%N ["A motion was approved by the required threshold."%string]); (Variant "Disapproved"%string [(Field (Some "proposal_hash"%string) 12%N (Some "T::Hash"%string) [])] 3%N ["A motion was not approved by the required threshold."%string]); (Variant "Executed"%string [(Field (Some "proposal_hash"%string) 12%N (Some "T::Hash"%string) []); (Field (Some "result"%string) 46%N (Some "DispatchResult"%string) [])] 4%N ["A motion was executed; result will be `Ok` if it returned without error."%string]); (Variant "MemberExecuted"%string [(Field (Some "proposal_hash"%string) 12%N (Some "T::Hash"%string) []); (Field (Some "result"%string) 46%N (Some "DispatchResult"%string) [])] 5%N ["A single member did some action; result will be `Ok` if it returned without error."%string]); (Variant "Closed"%string [(Field (Some "proposal_hash"%string) 12%N (Some "T::Hash"%string) []); (Field (Some "yes"%string) 4%N (Some "MemberCount"%string) []); (Field (Some "no"%string) 4%N (Some "MemberCount"%string) [])] 6%N ["A proposal was closed because its threshold was reached or after its duration was up."%string])]) ["
			The [event](https://docs.substrate.io/main-docs/build/events-errors/) emitted
			by this pallet.
			"%string]).
Definition md_t49 : ty := (Ty ["pallet_elections_phragmen"%string; "pallet"%string; "Event"%string] [("T"%string,None)] (TVariant [(Variant "NewTerm"%string [(Field (Some "new_members"%string) 50%N (Some "Vec<(<T as frame_system::Config>::AccountId, BalanceOf<T>)>"%string) [])] 0%N ["A new term with new_members. This indicates that enough candidates existed to run"%string; "the election, not that enough have has been elected. The inner value must be examined"%string; "for this purpose. A `NewTerm(\[\])` indicates that some candidates got their bond"%string; "slashed and none were elected, whilst `EmptyTerm` means that no candidates existed to"%string; "begin with."%string]); (Variant "EmptyTerm"%string [] 1%N ["No (or not enough) candidates existed for this round. This is different from"%string; "`NewTerm(\[\])`. See the description of `NewTerm`."%string]); (Variant "ElectionError"%string [] 2%N ["Internal error happened while trying to perform election."%string]); (Variant "MemberKicked"%string [(Field (Some "member"%string) 0%N (Some "<T as frame_system::Config>::AccountId"%string) [])] 3%N ["A member has been removed. This should always be followed by either `NewTerm` or"%string; "`EmptyTerm`."%string]); (Variant "Renounced"%string [(Field (Some "candidate"%string) 0%N (Some "<T as frame_system::Config>::AccountId"%string) [])] 4%N ["Someone has renounced their candidacy."%string]); (Variant "CandidateSlashed"%string [(Field (Some "candidate"%string) 0%N (Some "<T as frame_system::Config>::AccountId"%string) []); (Field (Some "amount"%string) 6%N (Some "BalanceOf<T>"%string) [])] 5%N ["A candidate was slashed by amount due to failing to obtain a seat as member or"%string; "runner-up."%string; ""%string; "Note that old members and runners-up are also candidates."%string]); (Variant "SeatHolderSlashed"%string [(Field (Some "seat_holder"%string) 0%N (Some "<T as frame_system::Config>::AccountId"%string) []); (Field (Some "amount"%string) 6%N (Some "BalanceOf<T>"%string) [])] 6%N ["A seat holder was slashed by amount by being forcefully removed from the set."%string])]) ["
			The [event](https://docs.substrate.io/main-docs/build/events-errors/) emitted
			by this pallet.
			"%string]).
Definition md_t50 : ty := (Ty [] [] (TSequence 51%N) []).
Definition md_t51 : ty := (Ty [] [] (TTuple [0%N; 6%N]) []).
Definition md_t52 : ty := (Ty ["pallet_membership"%string; "pallet"%string; "Event"%string] [("T"%string,None); ("I"%string,None)] (TVariant [(Variant "MemberAdded"%string [] 0%N ["The given member was added; see the transaction for who."%string]); (Variant "MemberRemoved"%string [] 1%N ["The given member was removed; see the transaction for who."%string]); (Variant "MembersSwapped"%string [] 2%N ["Two members were swapped; see the transaction for who."%string]); (Variant "MembersReset"%string [] 3%N ["The membership was reset; see the transaction for who the new set is."%string]); (Variant "KeyChanged"%string [] 4%N ["One of the members' keys changed."%string]); (Variant "Dummy"%string [] 5%N ["Phantom member, never used."%string])]) ["
			The [event](https://docs.substrate.io/main-docs/build/events-errors/) emitted
			by this pallet.
			"%string]).
Definition md_t53 : ty := (Ty ["pallet_membership"%string; "pallet"%string; "Event"%string] [("T"%string,None); ("I"%string,None)] (TVariant [(Variant "MemberAdded"%string [] 0%N ["The given member was added; see the transaction for who."%string]); (Variant "MemberRemoved"%string [] 1%N ["The given member was removed; see the transaction for who."%string]); (Variant "MembersSwapped"%string [] 2%N ["Two members were swapped; see the transaction for who."%string]); (Variant "MembersReset"%string [] 3%N ["The membership was reset; see the transaction for who the new set is."%string]); (Variant "KeyChanged"%string [] 4%N ["One of the members' keys changed."%string]); (Variant "Dummy"%string [] 5%N ["Phantom member, never used."%string])]) ["
			The [event](https://docs.substrate.io/main-docs/build/events-errors/) emitted
			by this pallet.
			"%string]).
Definition md_t54 : ty := (Ty ["pallet_conviction_voting"%string; "pallet"%string; "Event"%string] [("T"%string,None); ("I"%string,None)] (TVariant [(Variant "Delegated"%string [(Field None 0%N (Some "T::AccountId"%string) []); (Field None 0%N (Some "T::AccountId"%string) [])] 0%N ["An account has delegated their vote to another account. \[who, target\]"%string]); (Variant "Undelegated"%string [(Field None 0%N (Some "T::AccountId"%string) [])] 1%N ["An \[account\] has cancelled a previous delegation operation."%string])]) ["
			The [event](https://docs.substrate.io/main-docs/build/events-errors/) emitted
			by this pallet.
			"%string]).
Definition md_t55 : ty := (Ty ["pallet_referenda"%string; "pallet"%string; "Event"%string] [("T"%string,None); ("I"%string,None)] (TVariant [(Variant "Submitted"%string [(Field (Some "index"%string) 4%N (Some "ReferendumIndex"%string) ["Index of the referendum."%string]); (Field (Some "track"%string) 56%N (Some "TrackIdOf<T, I>"%string) ["The track (and by extension proposal dispatch origin) of this referendum."%string]); (Field (Some "proposal"%string) 57%N (Some "BoundedCallOf<T, I>"%string) ["The proposal for the referendum."%string])] 0%N ["A referendum has been submitted."%string]); (Variant "DecisionDepositPlaced"%string [(Field (Some "index"%string) 4%N (Some "ReferendumIndex"%string) ["Index of the referendum."%string]); (Field (Some "who"%string) 0%N (Some "T::AccountId"%string) ["The account who placed the deposit."%string]); (Field (Some "amount"%string) 6%N (Some "BalanceOf<T, I>"%string) ["The amount placed by the account."%string])] 1%N ["The decision deposit has been placed."%string]); (Variant "DecisionDepositRefunded"%string [(Field (Some "index"%string) 4%N (Some "ReferendumIndex"%string) ["Index of the referendum."%string]); (Field (Some "who"%string) 0%N (Some "T::AccountId"%string) ["The account who placed the deposit."%string]); (Field (Some "amount"%string) 6%N (Some "BalanceOf<T, I>"%string) ["The amount placed by the account."%string])] 2%N ["The decision deposit has been refunded."%string]); (Variant "DepositSlashed"%string [(Field (Some "who"%string) 0%N (Some "T::AccountId"%string) ["The account who placed the deposit."%string]); (Field (Some "amount"%string) 6%N (Some "BalanceOf<T, I>"%string) ["The amount placed by the account."%string])] 3%N ["A deposit has been slashaed."%string]); (Variant "DecisionStarted"%string [(Field (Some "index"%string) 4%N (Some "ReferendumIndex"%string) ["Index of the referendum."%string]); (Field (Some "track"%string) 56%N (Some "TrackIdOf<T, I>"%string) ["The track (and by extension proposal dispatch origin) of this referendum."%string]); (Field (Some "proposal"%string) 57%N (Some "BoundedCallOf<T, I>"%string) ["The proposal for the referendum."%string]); (Field (Some "tally"%string) 371%N (Some "T::Tally"%string) ["The current tally of votes in this referendum."%string])] 4%N ["A referendum has moved into the deciding phase."%string]); (Variant "ConfirmStarted"%string [(Field (Some "index"%string) 4%N (Some "ReferendumIndex"%string) ["Index of the referendum."%string])] 5%N []); (Variant "ConfirmAborted"%string [(Field (Some "index"%string) 4%N (Some "ReferendumIndex"%string) ["Index of the referendum."%string])] 6%N []); (Variant "Confirmed"%string [(Field (Some "index"%string) 4%N (Some "ReferendumIndex"%string) ["Index of the referendum."%string]); (Field (Some "tally"%string) 371%N (Some "T::Tally"%string) ["The final tally of votes in this referendum."%string])] 7%N ["A referendum has ended its confirmation phase and is ready for approval."%string]); (Variant "Approved"%string [(Field (Some "index"%string) 4%N (Some "ReferendumIndex"%string) ["Index of the referendum."%string])] 8%N ["A referendum has been approved and its proposal has been scheduled."%string]); (Variant "Rejected"%string [(Field (Some "index"%string) 4%N (Some "ReferendumIndex"%string) ["Index of the referendum."%string]); (Field (Some "tally"%string) 371%N (Some "T::Tally"%string) ["The final tally of votes in this referendum."%string])] 9%N ["A proposal has been rejected by referendum."%string]); (Variant "TimedOut"%string [(Field (Some "index"%string) 4%N (Some "ReferendumIndex"%string) ["Index of the referendum."%string]); (Field (Some "tally"%string) 371%N (Some "T::Tally"%string) ["The final tally of votes in this referendum."%string])] 10%N ["A referendum has been timed out without being decided."%string]); (Variant "Cancelled"%string [(Field (Some "index"%string) 4%N (Some "ReferendumIndex"%string) ["Index of the referendum."%string]); (Field (Some "tally"%string) 371%N (Some "T::Tally"%string) ["The final tally of votes in this referendum."%string])] 11%N ["A referendum has been cancelled."%string]); (Variant "Killed"%string [(Field (Some "index"%string) 4%N (Some "ReferendumIndex"%string) ["Index of the referendum."%string]); (Field (Some "tally"%string) 371%N (Some "T::Tally"%string) ["The final tally of votes in this referendum."%string])] 12%N ["A referendum has been killed."%string]); (Variant "SubmissionDepositRefunded"%string [(Field (Some "index"%string) 4%N (Some "ReferendumIndex"%string) ["Index of the referendum."%string]); (Field (Some "who"%string) 0%N (Some "T::AccountId"%string) ["The account who placed the deposit."%string]); (Field (Some "amount"%string) 6%N (Some "BalanceOf<T, I>"%string) ["The amount placed by the account."%string])] 13%N ["The submission deposit has been refunded."%string]); (Variant "MetadataSet"%string [(Field (Some "index"%string) 4%N (Some "ReferendumIndex"%string) ["Index of the referendum."%string]); (Field (Some "hash"%string) 12%N (Some "PreimageHash"%string) ["Preimage hash."%string])] 14%N ["Metadata for a referendum has been set."%string]); (Variant "MetadataCleared"%string [(Field (Some "index"%string) 4%N (Some "ReferendumIndex"%string) ["Index of the referendum."%string]); (Field (Some "hash"%string) 12%N (Some "PreimageHash"%string) ["Preimage hash."%string])] 15%N ["Metadata for a referendum has been cleared."%string])]) ["
			The [event](https://docs.substrate.io/main-docs/build/events-errors/) emitted
			by this pallet.
			"%string]).
Definition md_t56 : ty := (Ty [] [] (TPrimitive (PrU U16)) []).
Definition md_t57 : ty := (Ty ["frame_support"%string; "traits"%string; "preimages"%string; "Bounded"%string] [("T"%string,(Some 58%N))] (TVariant [(Variant "Legacy"%string [(Field (Some "hash"%string) 12%N (Some "Hash"%string) [])] 0%N []); (Variant "Inline"%string [(Field None 370%N (Some "BoundedInline"%string) [])] 1%N []); (Variant "Lookup"%string [(Field (Some "hash"%string) 12%N (Some "Hash"%string) []); (Field (Some "len"%string) 4%N (Some "u32"%string) [])] 2%N [])]) []).
Definition md_t58 : ty := (Ty ["bifrost_polkadot_runtime"%string; "RuntimeCall"%string] [] (TVariant [(Variant "System"%string [(Field None 59%N (Some "self::sp_api_hidden_includes_construct_runtime::hidden_include::dispatch
::CallableCallFor<System, Runtime>"%string) [])] 0%N []); (Variant "Timestamp"%string [(Field None 63%N (Some "self::sp_api_hidden_includes_construct_runtime::hidden_include::dispatch
::CallableCallFor<Timestamp, Runtime>"%string) [])] 1%N []); (Variant "Indices"%string [(Field None 64%N (Some "self::sp_api_hidden_includes_construct_runtime::hidden_include::dispatch
::CallableCallFor<Indices, Runtime>"%string) [])] 2%N []); (Variant "ParachainSystem"%string [(Field None 68%N (Some "self::sp_api_hidden_includes_construct_runtime::hidden_include::dispatch
::CallableCallFor<ParachainSystem, Runtime>"%string) [])] 5%N []); (Variant "Balances"%string [(Field None 82%N (Some "self::sp_api_hidden_includes_construct_runtime::hidden_include::dispatch
::CallableCallFor<Balances, Runtime>"%string) [])] 10%N []); (Variant "CollatorSelection"%string [(Field None 84%N (Some "self::sp_api_hidden_includes_construct_runtime::hidden_include::dispatch
::CallableCallFor<CollatorSelection, Runtime>"%string) [])] 21%N []); (Variant "Session"%string [(Field None 85%N (Some "self::sp_api_hidden_includes_construct_runtime::hidden_include::dispatch
::CallableCallFor<Session, Runtime>"%string) [])] 22%N []); (Variant "Democracy"%string [(Field None 89%N (Some "self::sp_api_hidden_includes_construct_runtime::hidden_include::dispatch
::CallableCallFor<Democracy, Runtime>"%string) [])] 30%N []); (Variant "Council"%string [(Field None 93%N (Some "self::sp_api_hidden_includes_construct_runtime::hidden_include::dispatch
::CallableCallFor<Council, Runtime>"%string) [])] 31%N []); (Variant "TechnicalCommittee"%string [(Field None 95%N (Some "self::sp_api_hidden_includes_construct_runtime::hidden_include::dispatch
::CallableCallFor<TechnicalCommittee, Runtime>"%string) [])] 32%N []); (Variant "PhragmenElection"%string [(Field None 96%N (Some "self::sp_api_hidden_includes_construct_runtime::hidden_include::dispatch
::CallableCallFor<PhragmenElection, Runtime>"%string) [])] 33%N []); (Variant "CouncilMembership"%string [(Field None 98%N (Some "self::sp_api_hidden_includes_construct_runtime::hidden_include::dispatch
::CallableCallFor<CouncilMembership, Runtime>"%string) [])] 34%N []); (Variant "TechnicalMembership"%string [(Field None 99%N (Some "self::sp_api_hidden_includes_construct_runtime::hidden_include::dispatch
::CallableCallFor<TechnicalMembership, Runtime>"%string) [])] 35%N []); (Variant "ConvictionVoting"%string [(Field None 100%N (Some "self::sp_api_hidden_includes_construct_runtime::hidden_include::dispatch
::CallableCallFor<ConvictionVoting, Runtime>"%string) [])] 36%N []); (Variant "Referenda"%string [(Field None 105%N (Some "self::sp_api_hidden_includes_construct_runtime::hidden_include::dispatch
::CallableCallFor<Referenda, Runtime>"%string) [])] 37%N []); (Variant "Whitelist"%string [(Field None 122%N (Some "self::sp_api_hidden_includes_construct_runtime::hidden_include::dispatch
::CallableCallFor<Whitelist, Runtime>"%string) [])] 39%N []); (Variant "XcmpQueue"%string [(Field None 123%N (Some "self::sp_api_hidden_includes_construct_runtime::hidden_include::dispatch
::CallableCallFor<XcmpQueue, Runtime>"%string) [])] 40%N []); (Variant "PolkadotXcm"%string [(Field None 124%N (Some "self::sp_api_hidden_includes_construct_runtime::hidden_include::dispatch
::CallableCallFor<PolkadotXcm, Runtime>"%string) [])] 41%N []); (Variant "DmpQueue"%string [(Field None 189%N (Some "self::sp_api_hidden_includes_construct_runtime::hidden_include::dispatch
::CallableCallFor<DmpQueue, Runtime>"%string) [])] 43%N []); (Variant "Utility"%string [(Field None 190%N (Some "self::sp_api_hidden_includes_construct_runtime::hidden_include::dispatch
::CallableCallFor<Utility, Runtime>"%string) [])] 50%N []); (Variant "Scheduler"%string [(Field None 192%N (Some "self::sp_api_hidden_includes_construct_runtime::hidden_include::dispatch
::CallableCallFor<Scheduler, Runtime>"%string) [])] 51%N []); (Variant "Proxy"%string [(Field None 195%N (Some "self::sp_api_hidden_includes_construct_runtime::hidden_include::dispatch
::CallableCallFor<Proxy, Runtime>"%string) [])] 52%N []); (Variant "Multisig"%string [(Field None 198%N (Some "self::sp_api_hidden_includes_construct_runtime::hidden_include::dispatch
::CallableCallFor<Multisig, Runtime>"%string) [])] 53%N []); (Variant "Identity"%string [(Field None 201%N (Some "self::sp_api_hidden_includes_construct_runtime::hidden_include::dispatch
::CallableCallFor<Identity, Runtime>"%string) [])] 54%N []); (Variant "Vesting"%string [(Field None 241%N (Some "self::sp_api_hidden_includes_construct_runtime::hidden_include::dispatch
::CallableCallFor<Vesting, Runtime>"%string) [])] 60%N []); (Variant "Treasury"%string [(Field None 243%N (Some "self::sp_api_hidden_includes_construct_runtime::hidden_include::dispatch
::CallableCallFor<Treasury, Runtime>"%string) [])] 61%N []); (Variant "Bounties"%string [(Field None 244%N (Some "self::sp_api_hidden_includes_construct_runtime::hidden_include::dispatch
::CallableCallFor<Bounties, Runtime>"%string) [])] 62%N []); (Variant "Tips"%string [(Field None 245%N (Some "self::sp_api_hidden_includes_construct_runtime::hidden_include::dispatch
::CallableCallFor<Tips, Runtime>"%string) [])] 63%N []); (Variant "Preimage"%string [(Field None 246%N (Some "self::sp_api_hidden_includes_construct_runtime::hidden_include::dispatch
::CallableCallFor<Preimage, Runtime>"%string) [])] 64%N []); (Variant "XTokens"%string [(Field None 247%N (Some "self::sp_api_hidden_includes_construct_runtime::hidden_include::dispatch
::CallableCallFor<XTokens, Runtime>"%string) [])] 70%N []); (Variant "Tokens"%string [(Field None 253%N (Some "self::sp_api_hidden_includes_construct_runtime::hidden_include::dispatch
::CallableCallFor<Tokens, Runtime>"%string) [])] 71%N []); (Variant "Currencies"%string [(Field None 254%N (Some "self::sp_api_hidden_includes_construct_runtime::hidden_include::dispatch
::CallableCallFor<Currencies, Runtime>"%string) [])] 72%N []); (Variant "OrmlXcm"%string [(Field None 256%N (Some "self::sp_api_hidden_includes_construct_runtime::hidden_include::dispatch
::CallableCallFor<OrmlXcm, Runtime>"%string) [])] 74%N []); (Variant "ZenlinkProtocol"%string [(Field None 257%N (Some "self::sp_api_hidden_includes_construct_runtime::hidden_include::dispatch
::CallableCallFor<ZenlinkProtocol, Runtime>"%string) [])] 80%N []); (Variant "MerkleDistributor"%string [(Field None 263%N (Some "self::sp_api_hidden_includes_construct_runtime::hidden_include::dispatch
::CallableCallFor<MerkleDistributor, Runtime>"%string) [])] 81%N []); (Variant "FlexibleFee"%string [(Field None 265%N (Some "self::sp_api_hidden_includes_construct_runtime::hidden_include::dispatch
::CallableCallFor<FlexibleFee, Runtime>"%string) [])] 100%N []); (Variant "Salp"%string [(Field None 269%N (Some "self::sp_api_hidden_includes_construct_runtime::hidden_include::dispatch
::CallableCallFor<Salp, Runtime>"%string) [])] 105%N []); (Variant "CallSwitchgear"%string [(Field None 272%N (Some "self::sp_api_hidden_includes_construct_runtime::hidden_include::dispatch
::CallableCallFor<CallSwitchgear, Runtime>"%string) [])] 112%N []); (Variant "AssetRegistry"%string [(Field None 273%N (Some "self::sp_api_hidden_includes_construct_runtime::hidden_include::dispatch
::CallableCallFor<AssetRegistry, Runtime>"%string) [])] 114%N []); (Variant "VtokenMinting"%string [(Field None 275%N (Some "self::sp_api_hidden_includes_construct_runtime::hidden_include::dispatch
::CallableCallFor<VtokenMinting, Runtime>"%string) [])] 115%N []); (Variant "Slp"%string [(Field None 279%N (Some "self::sp_api_hidden_includes_construct_runtime::hidden_include::dispatch
::CallableCallFor<Slp, Runtime>"%string) [])] 116%N []); (Variant "XcmInterface"%string [(Field None 315%N (Some "self::sp_api_hidden_includes_construct_runtime::hidden_include::dispatch
::CallableCallFor<XcmInterface, Runtime>"%string) [])] 117%N []); (Variant "TokenConversion"%string [(Field None 319%N (Some "self::sp_api_hidden_includes_construct_runtime::hidden_include::dispatch
::CallableCallFor<TokenConversion, Runtime>"%string) [])] 118%N []); (Variant "Farming"%string [(Field None 324%N (Some "self::sp_api_hidden_includes_construct_runtime::hidden_include::dispatch
::CallableCallFor<Farming, Runtime>"%string) [])] 119%N []); (Variant "SystemStaking"%string [(Field None 337%N (Some "self::sp_api_hidden_includes_construct_runtime::hidden_include::dispatch
::CallableCallFor<SystemStaking, Runtime>"%string) [])] 120%N []); (Variant "SystemMaker"%string [(Field None 343%N (Some "self::sp_api_hidden_includes_construct_runtime::hidden_include::dispatch
::CallableCallFor<SystemMaker, Runtime>"%string) [])] 121%N []); (Variant "FeeShare"%string [(Field None 345%N (Some "self::sp_api_hidden_includes_construct_runtime::hidden_include::dispatch
::CallableCallFor<FeeShare, Runtime>"%string) [])] 122%N []); (Variant "CrossInOut"%string [(Field None 350%N (Some "self::sp_api_hidden_includes_construct_runtime::hidden_include::dispatch
::CallableCallFor<CrossInOut, Runtime>"%string) [])] 123%N []); (Variant "VeMinting"%string [(Field None 352%N (Some "self::sp_api_hidden_includes_construct_runtime::hidden_include::dispatch
::CallableCallFor<VeMinting, Runtime>"%string) [])] 124%N []); (Variant "Slpx"%string [(Field None 353%N (Some "self::sp_api_hidden_includes_construct_runtime::hidden_include::dispatch
::CallableCallFor<Slpx, Runtime>"%string) [])] 125%N []); (Variant "FellowshipCollective"%string [(Field None 357%N (Some "self::sp_api_hidden_includes_construct_runtime::hidden_include::dispatch
::CallableCallFor<FellowshipCollective, Runtime>"%string) [])] 126%N []); (Variant "FellowshipReferenda"%string [(Field None 358%N (Some "self::sp_api_hidden_includes_construct_runtime::hidden_include::dispatch
::CallableCallFor<FellowshipReferenda, Runtime>"%string) [])] 127%N []); (Variant "StablePool"%string [(Field None 359%N (Some "self::sp_api_hidden_includes_construct_runtime::hidden_include::dispatch
::CallableCallFor<StablePool, Runtime>"%string) [])] 129%N []); (Variant "VtokenVoting"%string [(Field None 364%N (Some "self::sp_api_hidden_includes_construct_runtime::hidden_include::dispatch
::CallableCallFor<VtokenVoting, Runtime>"%string) [])] 130%N [])]) []).
Definition md_t59 : ty := (Ty ["frame_system"%string; "pallet"%string; "Call"%string] [("T"%string,None)] (TVariant [(Variant "remark"%string [(Field (Some "remark"%string) 13%N (Some "Vec<u8>"%string) [])] 0%N ["Make some on-chain remark."%string; ""%string; "## Complexity"%string; "- `O(1)`"%string]); (Variant "set_heap_pages"%string [(Field (Some "pages"%string) 11%N (Some "u64"%string) [])] 1%N ["Set the number of pages in the WebAssembly environment's heap."%string]); (Variant "set_code"%string [(Field (Some "code"%string) 13%N (Some "Vec<u8>"%string) [])] 2%N ["Set the new runtime code."%string; ""%string; "## Complexity"%string; "- `O(C + S)` where `C` length of `code` and `S` complexity of `can_set_code`"%string]); (Variant "set_code_without_checks"%string [(Field (Some "code"%string) 13%N (Some "Vec<u8>"%string) [])] 3%N ["Set the new runtime code without doing any checks of the given `code`."%string; ""%string; "## Complexity"%string; "- `O(C)` where `C` length of `code`"%string]); (Variant "set_storage"%string [(Field (Some "items"%string) 60%N (Some "Vec<KeyValue>"%string) [])] 4%N ["Set some items of storage."%string]); (Variant "kill_storage"%string [(Field (Some "keys"%string) 62%N (Some "Vec<Key>"%string) [])] 5%N ["Kill some items from storage."%string]); (Variant "kill_prefix"%string [(Field (Some "prefix"%string) 13%N (Some "Key"%string) []); (Field (Some "subkeys"%string) 4%N (Some "u32"%string) [])] 6%N ["Kill all storage items with a key that starts with the given prefix."%string; ""%string; "**NOTE:** We rely on the Root origin to provide us the number of subkeys under"%string; "the prefix we are removing to accurately calculate the weight of this function."%string]); (Variant "remark_with_event"%string [(Field (Some "remark"%string) 13%N (Some "Vec<u8>"%string) [])] 7%N ["Make some on-chain remark and emit event."%string])]) ["Contains one variant per dispatchable that can be called by an extrinsic."%string]).
Definition md_t60 : ty := (Ty [] [] (TSequence 61%N) []).
Definition md_t61 : ty := (Ty [] [] (TTuple [13%N; 13%N]) []).
Definition md_t62 : ty := (Ty [] [] (TSequence 13%N) []).
Definition md_t63 : ty := (Ty ["pallet_timestamp"%string; "pallet"%string; "Call"%string] [("T"%string,None)] (TVariant [(Variant "set"%string [(Field (Some "now"%string) 10%N (Some "T::Moment"%string) [])] 0%N ["Set the current time."%string; ""%string; "This call should be invoked exactly once per block. It will panic at the finalization"%string; "phase, if this call hasn't been invoked by that time."%string; ""%string; "The timestamp should be greater than the previous one by the amount specified by"%string; "`MinimumPeriod`."%string; ""%string; "The dispatch origin for this call must be `Inherent`."%string; ""%string; "## Complexity"%string; "- `O(1)` (Note that implementations of `OnTimestampSet` must also be `O(1)`)"%string; "- 1 storage read and 1 storage mutation (codec `O(1)`). (because of `DidUpdate::take` in"%string; "  `on_finalize`)"%string; "- 1 event handler `on_timestamp_set`. Must be `O(1)`."%string])]) ["Contains one variant per dispatchable that can be called by an extrinsic."%string]).
Definition md_t64 : ty := (Ty ["pallet_indices"%string; "pallet"%string; "Call"%string] [("T"%string,None)] (TVariant [(Variant "claim"%string [(Field (Some "index"%string) 4%N (Some "T::AccountIndex"%string) [])] 0%N ["Assign an previously unassigned index."%string; ""%string; "Payment: `Deposit` is reserved from the sender account."%string; ""%string; "The dispatch origin for this call must be _Signed_."%string; ""%string; "- `index`: the index to be claimed. This must not be in use."%string; ""%string; "Emits `IndexAssigned` if successful."%string; ""%string; "## Complexity"%string; "- `O(1)`."%string]); (Variant "transfer"%string [(Field (Some "new"%string) 65%N (Some "AccountIdLookupOf<T>"%string) []); (Field (Some "index"%string) 4%N (Some "T::AccountIndex"%string) [])] 1%N ["Assign an index already owned by the sender to another account. The balance reservation"%string; "is effectively transferred to the new account."%string; ""%string; "The dispatch origin for this call must be _Signed_."%string; ""%string; "- `index`: the index to be re-assigned. This must be owned by the sender."%string; "- `new`: the new owner of the index. This function is a no-op if it is equal to sender."%string; ""%string; "Emits `IndexAssigned` if successful."%string; ""%string; "## Complexity"%string; "- `O(1)`."%string]); (Variant "free"%string [(Field (Some "index"%string) 4%N (Some "T::AccountIndex"%string) [])] 2%N ["Free up an index owned by the sender."%string; ""%string; "Payment: Any previous deposit placed for the index is unreserved in the sender account."%string; ""%string; "The dispatch origin for this call must be _Signed_ and the sender must own the index."%string; ""%string; "- `index`: the index to be freed. This must be owned by the sender."%string; ""%string; "Emits `IndexFreed` if successful."%string; ""%string; "## Complexity"%string; "- `O(1)`."%string]); (Variant "force_transfer"%string [(Field (Some "new"%string) 65%N (Some "AccountIdLookupOf<T>"%string) []); (Field (Some "index"%string) 4%N (Some "T::AccountIndex"%string) []); (Field (Some "freeze"%string) 45%N (Some "bool"%string) [])] 3%N ["Force an index to an account. This doesn't require a deposit. If the index is already"%string; "held, then any deposit is reimbursed to its current owner."%string; ""%string; "The dispatch origin for this call must be _Root_."%string; ""%string; "- `index`: the index to be (re-)assigned."%string; "- `new`: the new owner of the index. This function is a no-op if it is equal to sender."%string; "- `freeze`: if set to `true`, will freeze the index so it cannot be transferred."%string; ""%string; "Emits `IndexAssigned` if successful."%string; ""%string; "## Complexity"%string; "- `O(1)`."%string]); (Variant "freeze"%string [(Field (Some "index"%string) 4%N (Some "T::AccountIndex"%string) [])] 4%N ["Freeze an index so it will always point to the sender account. This consumes the"%string; "deposit."%string; ""%string; "The dispatch origin for this call must be _Signed_ and the signing account must have a"%string; "non-frozen account `index`."%string; ""%string; "- `index`: the index to be frozen in place."%string; ""%string; "Emits `IndexFrozen` if successful."%string; ""%string; "## Complexity"%string; "- `O(1)`."%string])]) ["Contains one variant per dispatchable that can be called by an extrinsic."%string]).
Definition md_t65 : ty := (Ty ["sp_runtime"%string; "multiaddress"%string; "MultiAddress"%string] [("AccountId"%string,(Some 0%N)); ("AccountIndex"%string,(Some 4%N))] (TVariant [(Variant "Id"%string [(Field None 0%N (Some "AccountId"%string) [])] 0%N []); (Variant "Index"%string [(Field None 66%N (Some "AccountIndex"%string) [])] 1%N []); (Variant "Raw"%string [(Field None 13%N (Some "Vec<u8>"%string) [])] 2%N []); (Variant "Address32"%string [(Field None 1%N (Some "[u8; 32]"%string) [])] 3%N []); (Variant "Address20"%string [(Field None 67%N (Some "[u8; 20]"%string) [])] 4%N [])]) []).
Definition md_t66 : ty := (Ty [] [] (TCompact 4%N) []).
Definition md_t67 : ty := (Ty [] [] (TArray 20%N 2%N) []).
Definition md_t68 : ty := (Ty ["cumulus_pallet_parachain_system"%string; "pallet"%string; "Call"%string] [("T"%string,None)] (TVariant [(Variant "set_validation_data"%string [(Field (Some "data"%string) 69%N (Some "ParachainInherentData"%string) [])] 0%N ["Set the current validation data."%string; ""%string; "This should be invoked exactly once per block. It will panic at the finalization"%string; "phase if the call was not invoked."%string; ""%string; "The dispatch origin for this call must be `Inherent`"%string; ""%string; "As a side effect, this function upgrades the current validation function"%string; "if the appropriate time has come."%string]); (Variant "sudo_send_upward_message"%string [(Field (Some "message"%string) 13%N (Some "UpwardMessage"%string) [])] 1%N []); (Variant "authorize_upgrade"%string [(Field (Some "code_hash"%string) 12%N (Some "T::Hash"%string) []); (Field (Some "check_version"%string) 45%N (Some "bool"%string) [])] 2%N ["Authorize an upgrade to a given `code_hash` for the runtime. The runtime can be supplied"%string; "later."%string; ""%string; "The `check_version` parameter sets a boolean flag for whether or not the runtime's spec"%string; "version and name should be verified on upgrade. Since the authorization only has a hash,"%string; "it cannot actually perform the verification."%string; ""%string; "This call requires Root origin."%string]); (Variant "enact_authorized_upgrade"%string [(Field (Some "code"%string) 13%N (Some "Vec<u8>"%string) [])] 3%N ["Provide the preimage (runtime binary) `code` for an upgrade that has been authorized."%string; ""%string; "If the authorization required a version check, this call will ensure the spec name"%string; "remains unchanged and that the spec version has increased."%string; ""%string; "Note that this function will not apply the new `code`, but only attempt to schedule the"%string; "upgrade with the Relay Chain."%string; ""%string; "All origins are allowed."%string])]) ["Contains one variant per dispatchable that can be called by an extrinsic."%string]).
Definition md_t69 : ty := (Ty ["cumulus_primitives_parachain_inherent"%string; "ParachainInherentData"%string] [] (TComposite [(Field (Some "validation_data"%string) 70%N (Some "PersistedValidationData"%string) []); (Field (Some "relay_chain_state"%string) 72%N (Some "sp_trie::StorageProof"%string) []); (Field (Some "downward_messages"%string) 74%N (Some "Vec<InboundDownwardMessage>"%string) []); (Field (Some "horizontal_messages"%string) 76%N (Some "BTreeMap<ParaId, Vec<InboundHrmpMessage>>"%string) [])]) []).
Definition md_t70 : ty := (Ty ["polkadot_primitives"%string; "v4"%string; "PersistedValidationData"%string] [("H"%string,(Some 12%N)); ("N"%string,(Some 4%N))] (TComposite [(Field (Some "parent_head"%string) 71%N (Some "HeadData"%string) []); (Field (Some "relay_parent_number"%string) 4%N (Some "N"%string) []); (Field (Some "relay_parent_storage_root"%string) 12%N (Some "H"%string) []); (Field (Some "max_pov_size"%string) 4%N (Some "u32"%string) [])]) []).
Definition md_t71 : ty := (Ty ["polkadot_parachain"%string; "primitives"%string; "HeadData"%string] [] (TComposite [(Field None 13%N (Some "Vec<u8>"%string) [])]) []).
Definition md_t72 : ty := (Ty ["sp_trie"%string; "storage_proof"%string; "StorageProof"%string] [] (TComposite [(Field (Some "trie_nodes"%string) 73%N (Some "BTreeSet<Vec<u8>>"%string) [])]) []).
Definition md_t73 : ty := (Ty ["BTreeSet"%string] [("T"%string,(Some 13%N))] (TComposite [(Field None 62%N None [])]) []).
Definition md_t74 : ty := (Ty [] [] (TSequence 75%N) []).
Definition md_t75 : ty := (Ty ["polkadot_core_primitives"%string; "InboundDownwardMessage"%string] [("BlockNumber"%string,(Some 4%N))] (TComposite [(Field (Some "sent_at"%string) 4%N (Some "BlockNumber"%string) []); (Field (Some "msg"%string) 13%N (Some "DownwardMessage"%string) [])]) []).
Definition md_t76 : ty := (Ty ["BTreeMap"%string] [("K"%string,(Some 77%N)); ("V"%string,(Some 78%N))] (TComposite [(Field None 80%N None [])]) []).
Definition md_t77 : ty := (Ty ["polkadot_parachain"%string; "primitives"%string; "Id"%string] [] (TComposite [(Field None 4%N (Some "u32"%string) [])]) []).
Definition md_t78 : ty := (Ty [] [] (TSequence 79%N) []).
Definition md_t79 : ty := (Ty ["polkadot_core_primitives"%string; "InboundHrmpMessage"%string] [("BlockNumber"%string,(Some 4%N))] (TComposite [(Field (Some "sent_at"%string) 4%N (Some "BlockNumber"%string) []); (Field (Some "data"%string) 13%N (Some "sp_std::vec::Vec<u8>"%string) [])]) []).
Definition md_t80 : ty := (Ty [] [] (TSequence 81%N) []).
Definition md_t81 : ty := (Ty [] [] (TTuple [77%N; 78%N]) []).
Definition md_t82 : ty := (Ty ["pallet_balances"%string; "pallet"%string; "Call"%string] [("T"%string,None); ("I"%string,None)] (TVariant [(Variant "transfer_allow_death"%string [(Field (Some "dest"%string) 65%N (Some "AccountIdLookupOf<T>"%string) []); (Field (Some "value"%string) 83%N (Some "T::Balance"%string) [])] 0%N ["Transfer some liquid free balance to another account."%string; ""%string; "`transfer_allow_death` will set the `FreeBalance` of the sender and receiver."%string; "If the sender's account is below the existential deposit as a result"%string; "of the transfer, the account will be reaped."%string; ""%string; "The dispatch origin for this call must be `Signed` by the transactor."%string]); (Variant "set_balance_deprecated"%string [(Field (Some "who"%string) 65%N (Some "AccountIdLookupOf<T>"%string) []); (Field (Some "new_free"%string) 83%N (Some "T::Balance"%string) []); (Field (Some "old_reserved"%string) 83%N (Some "T::Balance"%string) [])] 1%N ["Set the regular balance of a given account; it also takes a reserved balance but this"%string; "must be the same as the account's current reserved balance."%string; ""%string; "The dispatch origin for this call is `root`."%string; ""%string; "WARNING: This call is DEPRECATED! Use `force_set_balance` instead."%string]); (Variant "force_transfer"%string [(Field (Some "source"%string) 65%N (Some "AccountIdLookupOf<T>"%string) []); (Field (Some "dest"%string) 65%N (Some "AccountIdLookupOf<T>"%string) []); (Field (Some "value"%string) 83%N (Some "T::Balance"%string) [])] 2%N ["Exactly as `transfer_allow_death`, except the origin must be root and the source account"%string; "may be specified."%string]); (Variant "transfer_keep_alive"%string [(Field (Some "dest"%string) 65%N (Some "AccountIdLookupOf<T>"%string) []); (Field (Some "value"%string) 83%N (Some "T::Balance"%string) [])] 3%N ["Same as the [`transfer_allow_death`] call, but with a check that the transfer will not"%string; "kill the origin account."%string; ""%string; "99% of the time you want [`transfer_allow_death`] instead."%string; ""%string; "[`transfer_allow_death`]: struct.Pallet.html#method.transfer"%string]); (Variant "transfer_all"%string [(Field (Some "dest"%string) 65%N (Some "AccountIdLookupOf<T>"%string) []); (Field (Some "keep_alive"%string) 45%N (Some "bool"%string) [])] 4%N ["Transfer the entire transferable balance from the caller account."%string; ""%string; "NOTE: This function only attempts to transfer _transferable_ balances. This means that"%string; "any locked, reserved, or existential deposits (when `keep_alive` is `true`), will not be"%string; "transferred by this function. To ensure that this function results in a killed account,"%string; "you might need to prepare the account by removing any reference counters, storage"%string; "deposits, etc..."%string; ""%string; "The dispatch origin of this call must be Signed."%string; ""%string; "- `dest`: The recipient of the transfer."%string; "- `keep_alive`: A boolean to determine if the `transfer_all` operation should send all"%string; "  of the funds the account has, causing the sender account to be killed (false), or"%string; "  transfer everything except at least the existential deposit, which will guarantee to"%string; "  keep the sender account alive (true)."%string]); (Variant "force_unreserve"%string [(Field (Some "who"%string) 65%N (Some "AccountIdLookupOf<T>"%string) []); (Field (Some "amount"%string) 6%N (Some "T::Balance"%string) [])] 5%N ["Unreserve some balance from a user by force."%string; ""%string; "Can only be called by ROOT."%string]); (Variant "upgrade_accounts"%string [(Field (Some "who"%string) 37%N (Some "Vec<T::AccountId>"%string) [])] 6%N ["Upgrade a specified account."%string; ""%string; "- `origin`: Must be `Signed`."%string; "- `who`: The account to be upgraded."%string; ""%string; "This will waive the transaction fee if at least all but 10% of the accounts needed to"%string; "be upgraded. (We let some not have to be upgraded just in order to allow for the"%string; "possibililty of churn)."%string]); (Variant "transfer"%string [(Field (Some "dest"%string) 65%N (Some "AccountIdLookupOf<T>"%string) []); (Field (Some "value"%string) 83%N (Some "T::Balance"%string) [])] 7%N ["Alias for `transfer_allow_death`, provided only for name-wise compatibility."%string; ""%string; "WARNING: DEPRECATED! Will be released in approximately 3 months."%string]); (Variant "force_set_balance"%string [(Field (Some "who"%string) 65%N (Some "AccountIdLookupOf<T>"%string) []); (Field (Some "new_free"%string) 83%N (Some "T::Balance"%string) [])] 8%N ["Set the regular balance of a given account."%string; ""%string; "The dispatch origin for this call is `root`."%string])]) ["Contains one variant per dispatchable that can be called by an extrinsic."%string]).
Definition md_t83 : ty := (Ty [] [] (TCompact 6%N) []).
Definition md_t84 : ty := (Ty ["pallet_collator_selection"%string; "pallet"%string; "Call"%string] [("T"%string,None)] (TVariant [(Variant "set_invulnerables"%string [(Field (Some "new"%string) 37%N (Some "Vec<T::AccountId>"%string) [])] 0%N ["Set the list of invulnerable (fixed) collators."%string]); (Variant "set_desired_candidates"%string [(Field (Some "max"%string) 4%N (Some "u32"%string) [])] 1%N ["Set the ideal number of collators (not including the invulnerables)."%string; "If lowering this number, then the number of running collators could be higher than this figure."%string; "Aside from that edge case, there should be no other way to have more collators than the desired number."%string]); (Variant "set_candidacy_bond"%string [(Field (Some "bond"%string) 6%N (Some "BalanceOf<T>"%string) [])] 2%N ["Set the candidacy bond amount."%string]); (Variant "register_as_candidate"%string [] 3%N ["Register this account as a collator candidate. The account must (a) already have"%string; "registered session keys and (b) be able to reserve the `CandidacyBond`."%string; ""%string; "This call is not available to `Invulnerable` collators."%string]); (Variant "leave_intent"%string [] 4%N ["Deregister `origin` as a collator candidate. Note that the collator can only leave on"%string; "session change. The `CandidacyBond` will be unreserved immediately."%string; ""%string; "This call will fail if the total number of candidates would drop below `MinCandidates`."%string; ""%string; "This call is not available to `Invulnerable` collators."%string])]) ["Contains one variant per dispatchable that can be called by an extrinsic."%string]).
Definition md_t85 : ty := (Ty ["pallet_session"%string; "pallet"%string; "Call"%string] [("T"%string,None)] (TVariant [(Variant "set_keys"%string [(Field (Some "keys"%string) 86%N (Some "T::Keys"%string) []); (Field (Some "proof"%string) 13%N (Some "Vec<u8>"%string) [])] 0%N ["Sets the session key(s) of the function caller to `keys`."%string; "Allows an account to set its session key prior to becoming a validator."%string; "This doesn't take effect until the next session."%string; ""%string; "The dispatch origin of this function must be signed."%string; ""%string; "## Complexity"%string; "- `O(1)`. Actual cost depends on the number of length of `T::Keys::key_ids()` which is"%string; "  fixed."%string]); (Variant "purge_keys"%string [] 1%N ["Removes any session key(s) of the function caller."%string; ""%string; "This doesn't take effect until the next session."%string; ""%string; "The dispatch origin of this function must be Signed and the account must be either be"%string; "convertible to a validator ID using the chain's typical addressing system (this usually"%string; "means being a controller account) or directly convertible into a validator ID (which"%string; "usually means being a stash account)."%string; ""%string; "## Complexity"%string; "- `O(1)` in number of key types. Actual cost depends on the number of length of"%string; "  `T::Keys::key_ids()` which is fixed."%string])]) ["Contains one variant per dispatchable that can be called by an extrinsic."%string]).
Definition md_t86 : ty := (Ty ["bifrost_polkadot_runtime"%string; "SessionKeys"%string] [] (TComposite [(Field (Some "aura"%string) 87%N (Some "<Aura as $crate::BoundToRuntimeAppPublic>::Public"%string) [])]) []).
Definition md_t87 : ty := (Ty ["sp_consensus_aura"%string; "sr25519"%string; "app_sr25519"%string; "Public"%string] [] (TComposite [(Field None 88%N (Some "sr25519::Public"%string) [])]) []).
Definition md_t88 : ty := (Ty ["sp_core"%string; "sr25519"%string; "Public"%string] [] (TComposite [(Field None 1%N (Some "[u8; 32]"%string) [])]) []).
Definition md_t89 : ty := (Ty ["pallet_democracy"%string; "pallet"%string; "Call"%string] [("T"%string,None)] (TVariant [(Variant "propose"%string [(Field (Some "proposal"%string) 57%N (Some "BoundedCallOf<T>"%string) []); (Field (Some "value"%string) 83%N (Some "BalanceOf<T>"%string) [])] 0%N ["Propose a sensitive action to be taken."%string; ""%string; "The dispatch origin of this call must be _Signed_ and the sender must"%string; "have funds to cover the deposit."%string; ""%string; "- `proposal_hash`: The hash of the proposal preimage."%string; "- `value`: The amount of deposit (must be at least `MinimumDeposit`)."%string; ""%string; "Emits `Proposed`."%string]); (Variant "second"%string [(Field (Some "proposal"%string) 66%N (Some "PropIndex"%string) [])] 1%N ["Signals agreement with a particular proposal."%string; ""%string; "The dispatch origin of this call must be _Signed_ and the sender"%string; "must have funds to cover the deposit, equal to the original deposit."%string; ""%string; "- `proposal`: The index of the proposal to second."%string]); (Variant "vote"%string [(Field (Some "ref_index"%string) 66%N (Some "ReferendumIndex"%string) []); (Field (Some "vote"%string) 41%N (Some "AccountVote<BalanceOf<T>>"%string) [])] 2%N ["Vote in a referendum. If `vote.is_aye()`, the vote is to enact the proposal;"%string; "otherwise it is a vote to keep the status quo."%string; ""%string; "The dispatch origin of this call must be _Signed_."%string; ""%string; "- `ref_index`: The index of the referendum to vote for."%string; "- `vote`: The vote configuration."%string]); (Variant "emergency_cancel"%string [(Field (Some "ref_index"%string) 4%N (Some "ReferendumIndex"%string) [])] 3%N ["Schedule an emergency cancellation of a referendum. Cannot happen twice to the same"%string; "referendum."%string; ""%string; "The dispatch origin of this call must be `CancellationOrigin`."%string; ""%string; "-`ref_index`: The index of the referendum to cancel."%string; ""%string; "Weight: `O(1)`."%string]); (Variant "external_propose"%string [(Field (Some "proposal"%string) 57%N (Some "BoundedCallOf<T>"%string) [])] 4%N ["Schedule a referendum to be tabled once it is legal to schedule an external"%string; "referendum."%string; ""%string; "The dispatch origin of this call must be `ExternalOrigin`."%string; ""%string; "- `proposal_hash`: The preimage hash of the proposal."%string]); (Variant "external_propose_majority"%string [(Field (Some "proposal"%string) 57%N (Some "BoundedCallOf<T>"%string) [])] 5%N ["Schedule a majority-carries referendum to be tabled next once it is legal to schedule"%string; "an external referendum."%string; ""%string; "The dispatch of this call must be `ExternalMajorityOrigin`."%string; ""%string; "- `proposal_hash`: The preimage hash of the proposal."%string; ""%string; "Unlike `external_propose`, blacklisting has no effect on this and it may replace a"%string; "pre-scheduled `external_propose` call."%string; ""%string; "Weight: `O(1)`"%string]); (Variant "external_propose_default"%string [(Field (Some "proposal"%string) 57%N (Some "BoundedCallOf<T>"%string) [])] 6%N ["Schedule a negative-turnout-bias referendum to be tabled next once it is legal to"%string; "schedule an external referendum."%string; ""%string; "The dispatch of this call must be `ExternalDefaultOrigin`."%string; ""%string; "- `proposal_hash`: The preimage hash of the proposal."%string; ""%string; "Unlike `external_propose`, blacklisting has no effect on this and it may replace a"%string; "pre-scheduled `external_propose` call."%string; ""%string; "Weight: `O(1)`"%string]); (Variant "fast_track"%string [(Field (Some "proposal_hash"%string) 12%N (Some "H256"%string) []); (Field (Some "voting_period"%string) 4%N (Some "T::BlockNumber"%string) []); (Field (Some "delay"%string) 4%N (Some "T::BlockNumber"%string) [])] 7%N ["Schedule the currently externally-proposed majority-carries referendum to be tabled"%string; "immediately. If there is no externally-proposed referendum currently, or if there is one"%string; "but it is not a majority-carries referendum then it fails."%string; ""%string; "The dispatch of this call must be `FastTrackOrigin`."%string; ""%string; "- `proposal_hash`: The hash of the current external proposal."%string; "- `voting_period`: The period that is allowed for voting on this proposal. Increased to"%string; "	Must be always greater than zero."%string; "	For `FastTrackOrigin` must be equal or greater than `FastTrackVotingPeriod`."%string; "- `delay`: The number of block after voting has ended in approval and this should be"%string; "  enacted. This doesn't have a minimum amount."%string; ""%string; "Emits `Started`."%string; ""%string; "Weight: `O(1)`"%string]); (Variant "veto_external"%string [(Field (Some "proposal_hash"%string) 12%N (Some "H256"%string) [])] 8%N ["Veto and blacklist the external proposal hash."%string; ""%string; "The dispatch origin of this call must be `VetoOrigin`."%string; ""%string; "- `proposal_hash`: The preimage hash of the proposal to veto and blacklist."%string; ""%string; "Emits `Vetoed`."%string; ""%string; "Weight: `O(V + log(V))` where V is number of `existing vetoers`"%string]); (Variant "cancel_referendum"%string [(Field (Some "ref_index"%string) 66%N (Some "ReferendumIndex"%string) [])] 9%N ["Remove a referendum."%string; ""%string; "The dispatch origin of this call must be _Root_."%string; ""%string; "- `ref_index`: The index of the referendum to cancel."%string; ""%string; "# Weight: `O(1)`."%string]); (Variant "delegate"%string [(Field (Some "to"%string) 65%N (Some "AccountIdLookupOf<T>"%string) []); (Field (Some "conviction"%string) 90%N (Some "Conviction"%string) []); (Field (Some "balance"%string) 6%N (Some "BalanceOf<T>"%string) [])] 10%N ["Delegate the voting power (with some given conviction) of the sending account."%string; ""%string; "The balance delegated is locked for as long as it's delegated, and thereafter for the"%string; "time appropriate for the conviction's lock period."%string; ""%string; "The dispatch origin of this call must be _Signed_, and the signing account must either:"%string; "  - be delegating already; or"%string; "  - have no voting activity (if there is, then it will need to be removed/consolidated"%string; "    through `reap_vote` or `unvote`)."%string; ""%string; "- `to`: The account whose voting the `target` account's voting power will follow."%string; "- `conviction`: The conviction that will be attached to the delegated votes. When the"%string; "  account is undelegated, the funds will be locked for the corresponding period."%string; "- `balance`: The amount of the account's balance to be used in delegating. This must not"%string; "  be more than the account's current balance."%string; ""%string; "Emits `Delegated`."%string; ""%string; "Weight: `O(R)` where R is the number of referendums the voter delegating to has"%string; "  voted on. Weight is charged as if maximum votes."%string]); (Variant "undelegate"%string [] 11%N ["Undelegate the voting power of the sending account."%string; ""%string; "Tokens may be unlocked following once an amount of time consistent with the lock period"%string; "of the conviction with which the delegation was issued."%string; ""%string; "The dispatch origin of this call must be _Signed_ and the signing account must be"%string; "currently delegating."%string; ""%string; "Emits `Undelegated`."%string; ""%string; "Weight: `O(R)` where R is the number of referendums the voter delegating to has"%string; "  voted on. Weight is charged as if maximum votes."%string]); (Variant "clear_public_proposals"%string [] 12%N ["Clears all public proposals."%string; ""%string; "The dispatch origin of this call must be _Root_."%string; ""%string; "Weight: `O(1)`."%string]); (Variant "unlock"%string [(Field (Some "target"%string) 65%N (Some "AccountIdLookupOf<T>"%string) [])] 13%N ["Unlock tokens that have an expired lock."%string; ""%string; "The dispatch origin of this call must be _Signed_."%string; ""%string; "- `target`: The account to remove the lock on."%string; ""%string; "Weight: `O(R)` with R number of vote of target."%string]); (Variant "remove_vote"%string [(Field (Some "index"%string) 4%N (Some "ReferendumIndex"%string) [])] 14%N ["Remove a vote for a referendum."%string; ""%string; "If:"%string; "- the referendum was cancelled, or"%string; "- the referendum is ongoing, or"%string; "- the referendum has ended such that"%string; "  - the vote of the account was in opposition to the result; or"%string; "  - there was no conviction to the account's vote; or"%string; "  - the account made a split vote"%string; "...then the vote is removed cleanly and a following call to `unlock` may result in more"%string; "funds being available."%string; ""%string; "If, however, the referendum has ended and:"%string; "- it finished corresponding to the vote of the account, and"%string; "- the account made a standard vote with conviction, and"%string; "- the lock period of the conviction is not over"%string; "...then the lock will be aggregated into the overall account's lock, which may involve"%string; "*overlocking* (where the two locks are combined into a single lock that is the maximum"%string; "of both the amount locked and the time is it locked for)."%string; ""%string; "The dispatch origin of this call must be _Signed_, and the signer must have a vote"%string; "registered for referendum `index`."%string; ""%string; "- `index`: The index of referendum of the vote to be removed."%string; ""%string; "Weight: `O(R + log R)` where R is the number of referenda that `target` has voted on."%string; "  Weight is calculated for the maximum number of vote."%string]); (Variant "remove_other_vote"%string [(Field (Some "target"%string) 65%N (Some "AccountIdLookupOf<T>"%string) []); (Field (Some "index"%string) 4%N (Some "ReferendumIndex"%string) [])] 15%N ["Remove a vote for a referendum."%string; ""%string; "If the `target` is equal to the signer, then this function is exactly equivalent to"%string; "`remove_vote`. If not equal to the signer, then the vote must have expired,"%string; "either because the referendum was cancelled, because the voter lost the referendum or"%string; "because the conviction period is over."%string; ""%string; "The dispatch origin of this call must be _Signed_."%string; ""%string; "- `target`: The account of the vote to be removed; this account must have voted for"%string; "  referendum `index`."%string; "- `index`: The index of referendum of the vote to be removed."%string; ""%string; "Weight: `O(R + log R)` where R is the number of referenda that `target` has voted on."%string; "  Weight is calculated for the maximum number of vote."%string]); (Variant "blacklist"%string [(Field (Some "proposal_hash"%string) 12%N (Some "H256"%string) []); (Field (Some "maybe_ref_index"%string) 91%N (Some "Option<ReferendumIndex>"%string) [])] 16%N ["Permanently place a proposal into the blacklist. This prevents it from ever being"%string; "proposed again."%string; ""%string; "If called on a queued public or external proposal, then this will result in it being"%string; "removed. If the `ref_index` supplied is an active referendum with the proposal hash,"%string; "then it will be cancelled."%string; ""%string; "The dispatch origin of this call must be `BlacklistOrigin`."%string; ""%string; "- `proposal_hash`: The proposal hash to blacklist permanently."%string; "- `ref_index`: An ongoing referendum whose hash is `proposal_hash`, which will be"%string; "cancelled."%string; ""%string; "Weight: `O(p)` (though as this is an high-privilege dispatch, we assume it has a"%string; "  reasonable value)."%string]); (Variant "cancel_proposal"%string [(Field (Some "prop_index"%string) 66%N (Some "PropIndex"%string) [])] 17%N ["Remove a proposal."%string; ""%string; "The dispatch origin of this call must be `CancelProposalOrigin`."%string; ""%string; "- `prop_index`: The index of the proposal to cancel."%string; ""%string; "Weight: `O(p)` where `p = PublicProps::<T>::decode_len()`"%string]); (Variant "set_metadata"%string [(Field (Some "owner"%string) 43%N (Some "MetadataOwner"%string) []); (Field (Some "maybe_hash"%string) 92%N (Some "Option<PreimageHash>"%string) [])] 18%N ["Set or clear a metadata of a proposal or a referendum."%string; ""%string; "Parameters:"%string; "- `origin`: Must correspond to the `MetadataOwner`."%string; "    - `ExternalOrigin` for an external proposal with the `SuperMajorityApprove`"%string; "      threshold."%string; "    - `ExternalDefaultOrigin` for an external proposal with the `SuperMajorityAgainst`"%string; "      threshold."%string; "    - `ExternalMajorityOrigin` for an external proposal with the `SimpleMajority`"%string; "      threshold."%string; "    - `Signed` by a creator for a public proposal."%string; "    - `Signed` to clear a metadata for a finished referendum."%string; "    - `Root` to set a metadata for an ongoing referendum."%string; "- `owner`: an identifier of a metadata owner."%string; "- `maybe_hash`: The hash of an on-chain stored preimage. `None` to clear a metadata."%string])]) ["Contains one variant per dispatchable that can be called by an extrinsic."%string]).
Definition md_t90 : ty := (Ty ["pallet_democracy"%string; "conviction"%string; "Conviction"%string] [] (TVariant [(Variant "None"%string [] 0%N []); (Variant "Locked1x"%string [] 1%N []); (Variant "Locked2x"%string [] 2%N []); (Variant "Locked3x"%string [] 3%N []); (Variant "Locked4x"%string [] 4%N []); (Variant "Locked5x"%string [] 5%N []); (Variant "Locked6x"%string [] 6%N [])]) []).
Definition md_t91 : ty := (Ty ["Option"%string] [("T"%string,(Some 4%N))] (TVariant [(Variant "None"%string [] 0%N []); (Variant "Some"%string [(Field None 4%N None [])] 1%N [])]) []).
Definition md_t92 : ty := (Ty ["Option"%string] [("T"%string,(Some 12%N))] (TVariant [(Variant "None"%string [] 0%N []); (Variant "Some"%string [(Field None 12%N None [])] 1%N [])]) []).
Definition md_t93 : ty := (Ty ["pallet_collective"%string; "pallet"%string; "Call"%string] [("T"%string,None); ("I"%string,None)] (TVariant [(Variant "set_members"%string [(Field (Some "new_members"%string) 37%N (Some "Vec<T::AccountId>"%string) []); (Field (Some "prime"%string) 94%N (Some "Option<T::AccountId>"%string) []); (Field (Some "old_count"%string) 4%N (Some "MemberCount"%string) [])] 0%N ["Set the collective's membership."%string; ""%string; "- `new_members`: The new member list. Be nice to the chain and provide it sorted."%string; "- `prime`: The prime member whose vote sets the default."%string; "- `old_count`: The upper bound for the previous number of members in storage. Used for"%string; "  weight estimation."%string; ""%string; "The dispatch of this call must be `SetMembersOrigin`."%string; ""%string; "NOTE: Does not enforce the expected `MaxMembers` limit on the amount of members, but"%string; "      the weight estimations rely on it to estimate dispatchable weight."%string; ""%string; "# WARNING:"%string; ""%string; "The `pallet-collective` can also be managed by logic outside of the pallet through the"%string; "implementation of the trait [`ChangeMembers`]."%string; "Any call to `set_members` must be careful that the member set doesn't get out of sync"%string; "with other logic managing the member set."%string; ""%string; "## Complexity:"%string; "- `O(MP + N)` where:"%string; "  - `M` old-members-count (code- and governance-bounded)"%string; "  - `N` new-members-count (code- and governance-bounded)"%string; "  - `P` proposals-count (code-bounded)"%string]); (Variant "execute"%string [(Field (Some "proposal"%string) 58%N (Some "Box<<T as Config<I>>::Proposal>"%string) []); (Field (Some "length_bound"%string) 66%N (Some "u32"%string) [])] 1%N ["Dispatch a proposal from a member using the `Member` origin."%string; ""%string; "Origin must be a member of the collective."%string; ""%string; "## Complexity:"%string; "- `O(B + M + P)` where:"%string; "- `B` is `proposal` size in bytes (length-fee-bounded)"%string; "- `M` members-count (code-bounded)"%string; "- `P` complexity of dispatching `proposal`"%string]); (Variant "propose"%string [(Field (Some "threshold"%string) 66%N (Some "MemberCount"%string) []); (Field (Some "proposal"%string) 58%N (Some "Box<<T as Config<I>>::Proposal>"%string) []); (Field (Some "length_bound"%string) 66%N (Some "u32"%string) [])] 2%N ["Add a new proposal to either be voted on or executed directly."%string; ""%string; "Requires the sender to be member."%string; ""%string; "`threshold` determines whether `proposal` is executed directly (`threshold < 2`)"%string; "or put up for voting."%string; ""%string; "## Complexity"%string; "- `O(B + M + P1)` or `O(B + M + P2)` where:"%string; "  - `B` is `proposal` size in bytes (length-fee-bounded)"%string; "  - `M` is members-count (code- and governance-bounded)"%string; "  - branching is influenced by `threshold` where:"%string; "    - `P1` is proposal execution complexity (`threshold < 2`)"%string; "    - `P2` is proposals-count (code-bounded) (`threshold >= 2`)"%string]); (Variant "vote"%string [(Field (Some "proposal"%string) 12%N (Some "T::Hash"%string) []); (Field (Some "index"%string) 66%N (Some "ProposalIndex"%string) []); (Field (Some "approve"%string) 45%N (Some "bool"%string) [])] 3%N ["Add an aye or nay vote for the sender to the given proposal."%string; ""%string; "Requires the sender to be a member."%string; ""%string; "Transaction fees will be waived if the member is voting on any particular proposal"%string; "for the first time and the call is successful. Subsequent vote changes will charge a"%string; "fee."%string; "## Complexity"%string; "- `O(M)` where `M` is members-count (code- and governance-bounded)"%string]); (Variant "disapprove_proposal"%string [(Field (Some "proposal_hash"%string) 12%N (Some "T::Hash"%string) [])] 5%N ["Disapprove a proposal, close, and remove it from the system, regardless of its current"%string; "state."%string; ""%string; "Must be called by the Root origin."%string; ""%string; "Parameters:"%string; "* `proposal_hash`: The hash of the proposal that should be disapproved."%string; ""%string; "## Complexity"%string; "O(P) where P is the number of max proposals"%string]); (Variant "close"%string [(Field (Some "proposal_hash"%string) 12%N (Some "T::Hash"%string) []); (Field (Some "index"%string) 66%N (Some "ProposalIndex"%string) []); (Field (Some "proposal_weight_bound"%string) 9%N (Some "Weight"%string) []); (Field (Some "length_bound"%string) 66%N (Some "u32"%string) [])] 6%N ["Close a vote that is either approved, disapproved or whose voting period has ended."%string; ""%string; "May be called by any signed account in order to finish voting and close the proposal."%string; ""%string; "If called before the end of the voting period it will only close the vote if it is"%string; "has enough votes to be approved or disapproved."%string; ""%string; "If called after the end of the voting period abstentions are counted as rejections"%string; "unless there is a prime member set and the prime member cast an approval."%string; ""%string; "If the close operation completes successfully with disapproval, the transaction fee will"%string; "be waived. Otherwise execution of the approved operation will be charged to the caller."%string; ""%string; "+ `proposal_weight_bound`: The maximum amount of weight consumed by executing the closed"%string; "proposal."%string; "+ `length_bound`: The upper bound for the length of the proposal in storage. Checked via"%string; "`storage::read` so it is `size_of::<u32>() == 4` larger than the pure length."%string; ""%string; "## Complexity"%string; "- `O(B + M + P1 + P2)` where:"%string; "  - `B` is `proposal` size in bytes (length-fee-bounded)"%string; "  - `M` is members-count (code- and governance-bounded)"%string; "  - `P1` is the complexity of `proposal` preimage."%string; "  - `P2` is proposal-count (code-bounded)"%string])]) ["Contains one variant per dispatchable that can be called by an extrinsic."%string]).
Definition md_t94 : ty := (Ty ["Option"%string] [("T"%string,(Some 0%N))] (TVariant [(Variant "None"%string [] 0%N []); (Variant "Some"%string [(Field None 0%N None [])] 1%N [])]) []).
Definition md_t95 : ty := (Ty ["pallet_collective"%string; "pallet"%string; "Call"%string] [("T"%string,None); ("I"%string,None)] (TVariant [(Variant "set_members"%string [(Field (Some "new_members"%string) 37%N (Some "Vec<T::AccountId>"%string) []); (Field (Some "prime"%string) 94%N (Some "Option<T::AccountId>"%string) []); (Field (Some "old_count"%string) 4%N (Some "MemberCount"%string) [])] 0%N ["Set the collective's membership."%string; ""%string; "- `new_members`: The new member list. Be nice to the chain and provide it sorted."%string; "- `prime`: The prime member whose vote sets the default."%string; "- `old_count`: The upper bound for the previous number of members in storage. Used for"%string; "  weight estimation."%string; ""%string; "The dispatch of this call must be `SetMembersOrigin`."%string; ""%string; "NOTE: Does not enforce the expected `MaxMembers` limit on the amount of members, but"%string; "      the weight estimations rely on it to estimate dispatchable weight."%string; ""%string; "# WARNING:"%string; ""%string; "The `pallet-collective` can also be managed by logic outside of the pallet through the"%string; "implementation of the trait [`ChangeMembers`]."%string; "Any call to `set_members` must be careful that the member set doesn't get out of sync"%string; "with other logic managing the member set."%string; ""%string; "## Complexity:"%string; "- `O(MP + N)` where:"%string; "  - `M` old-members-count (code- and governance-bounded)"%string; "  - `N` new-members-count (code- and governance-bounded)"%string; "  - `P` proposals-count (code-bounded)"%string]); (Variant "execute"%string [(Field (Some "proposal"%string) 58%N (Some "Box<<T as Config<I>>::Proposal>"%string) []); (Field (Some "length_bound"%string) 66%N (Some "u32"%string) [])] 1%N ["Dispatch a proposal from a member using the `Member` origin."%string; ""%string; "Origin must be a member of the collective."%string; ""%string; "## Complexity:"%string; "- `O(B + M + P)` where:"%string; "- `B` is `proposal` size in bytes (length-fee-bounded)"%string; "- `M` members-count (code-bounded)"%string; "- `P` complexity of dispatching `proposal`"%string]); (Variant "propose"%string [(Field (Some "threshold"%string) 66%N (Some "MemberCount"%string) []); (Field (Some "proposal"%string) 58%N (Some "Box<<T as Config<I>>::Proposal>"%string) []); (Field (Some "length_bound"%string) 66%N (Some "u32"%string) [])] 2%N ["Add a new proposal to either be voted on or executed directly."%string; ""%string; "Requires the sender to be member."%string; ""%string; "`threshold` determines whether `proposal` is executed directly (`threshold < 2`)"%string; "or put up for voting."%string; ""%string; "## Complexity"%string; "- `O(B + M + P1)` or `O(B + M + P2)` where:"%string; "  - `B` is `proposal` size in bytes (length-fee-bounded)"%string; "  - `M` is members-count (code- and governance-bounded)"%string; "  - branching is influenced by `threshold` where:"%string; "    - `P1` is proposal execution complexity (`threshold < 2`)"%string; "    - `P2` is proposals-count (code-bounded) (`threshold >= 2`)"%string]); (Variant "vote"%string [(Field (Some "proposal"%string) 12%N (Some "T::Hash"%string) []); (Field (Some "index"%string) 66%N (Some "ProposalIndex"%string) []); (Field (Some "approve"%string) 45%N (Some "bool"%string) [])] 3%N ["Add an aye or nay vote for the sender to the given proposal."%string; ""%string; "Requires the sender to be a member."%string; ""%string; "Transaction fees will be waived if the member is voting on any particular proposal"%string; "for the first time and the call is successful. Subsequent vote changes will charge a"%string; "fee."%string; "## Complexity"%string; "- `O(M)` where `M` is members-count (code- and governance-bounded)"%string]); (Variant "disapprove_proposal"%string [(Field (Some "proposal_hash"%string) 12%N (Some "T::Hash"%string) [])] 5%N ["Disapprove a proposal, close, and remove it from the system, regardless of its current"%string; "state."%string; ""%string; "Must be called by the Root origin."%string; ""%string; "Parameters:"%string; "* `proposal_hash`: The hash of the proposal that should be disapproved."%string; ""%string; "## Complexity"%string; "O(P) where P is the number of max proposals"%string]); (Variant "close"%string [(Field (Some "proposal_hash"%string) 12%N (Some "T::Hash"%string) []); (Field (Some "index"%string) 66%N (Some "ProposalIndex"%string) []); (Field (Some "proposal_weight_bound"%string) 9%N (Some "Weight"%string) []); (Field (Some "length_bound"%string) 66%N (Some "u32"%string) [])] 6%N ["Close a vote that is either approved, disapproved or whose voting period has ended."%string; ""%string; "May be called by any signed account in order to finish voting and close the proposal."%string; ""%string; "If called before the end of the voting period it will only close the vote if it is"%string; "has enough votes to be approved or disapproved."%string; ""%string; "If called after the end of the voting period abstentions are counted as rejections"%string; "unless there is a prime member set and the prime member cast an approval."%string; ""%string; "If the close operation completes successfully with disapproval, the transaction fee will"%string; "be waived. Otherwise execution of the approved operation will be charged to the caller."%string; ""%string; "+ `proposal_weight_bound`: The maximum amount of weight consumed by executing the closed"%string; "proposal."%string; "+ `length_bound`: The upper bound for the length of the proposal in storage. Checked via"%string; "`storage::read` so it is `size_of::<u32>() == 4` larger than the pure length."%string; ""%string; "## Complexity"%string; "- `O(B + M + P1 + P2)` where:"%string; "  - `B` is `proposal` size in bytes (length-fee-bounded)"%string; "  - `M` is members-count (code- and governance-bounded)"%string; "  - `P1` is the complexity of `proposal` preimage."%string; "  - `P2` is proposal-count (code-bounded)"%string])]) ["Contains one variant per dispatchable that can be called by an extrinsic."%string]).
Definition md_t96 : ty := (Ty ["pallet_elections_phragmen"%string; "pallet"%string; "Call"%string] [("T"%string,None)] (TVariant [(Variant "vote"%string [(Field (Some "votes"%string) 37%N (Some "Vec<T::AccountId>"%string) []); (Field (Some "value"%string) 83%N (Some "BalanceOf<T>"%string) [])] 0%N ["Vote for a set of candidates for the upcoming round of election. This can be called to"%string; "set the initial votes, or update already existing votes."%string; ""%string; "Upon initial voting, `value` units of `who`'s balance is locked and a deposit amount is"%string; "reserved. The deposit is based on the number of votes and can be updated over time."%string; ""%string; "The `votes` should:"%string; "  - not be empty."%string; "  - be less than the number of possible candidates. Note that all current members and"%string; "    runners-up are also automatically candidates for the next round."%string; ""%string; "If `value` is more than `who`'s free balance, then the maximum of the two is used."%string; ""%string; "The dispatch origin of this call must be signed."%string; ""%string; "### Warning"%string; ""%string; "It is the responsibility of the caller to **NOT** place all of their balance into the"%string; "lock and keep some for further operations."%string]); (Variant "remove_voter"%string [] 1%N ["Remove `origin` as a voter."%string; ""%string; "This removes the lock and returns the deposit."%string; ""%string; "The dispatch origin of this call must be signed and be a voter."%string]); (Variant "submit_candidacy"%string [(Field (Some "candidate_count"%string) 66%N (Some "u32"%string) [])] 2%N ["Submit oneself for candidacy. A fixed amount of deposit is recorded."%string; ""%string; "All candidates are wiped at the end of the term. They either become a member/runner-up,"%string; "or leave the system while their deposit is slashed."%string; ""%string; "The dispatch origin of this call must be signed."%string; ""%string; "### Warning"%string; ""%string; "Even if a candidate ends up being a member, they must call [`Call::renounce_candidacy`]"%string; "to get their deposit back. Losing the spot in an election will always lead to a slash."%string; ""%string; "The number of current candidates must be provided as witness data."%string; "## Complexity"%string; "O(C + log(C)) where C is candidate_count."%string]); (Variant "renounce_candidacy"%string [(Field (Some "renouncing"%string) 97%N (Some "Renouncing"%string) [])] 3%N ["Renounce one's intention to be a candidate for the next election round. 3 potential"%string; "outcomes exist:"%string; ""%string; "- `origin` is a candidate and not elected in any set. In this case, the deposit is"%string; "  unreserved, returned and origin is removed as a candidate."%string; "- `origin` is a current runner-up. In this case, the deposit is unreserved, returned and"%string; "  origin is removed as a runner-up."%string; "- `origin` is a current member. In this case, the deposit is unreserved and origin is"%string; "  removed as a member, consequently not being a candidate for the next round anymore."%string; "  Similar to [`remove_member`](Self::remove_member), if replacement runners exists, they"%string; "  are immediately used. If the prime is renouncing, then no prime will exist until the"%string; "  next round."%string; ""%string; "The dispatch origin of this call must be signed, and have one of the above roles."%string; "The type of renouncing must be provided as witness data."%string; ""%string; "## Complexity"%string; "  - Renouncing::Candidate(count): O(count + log(count))"%string; "  - Renouncing::Member: O(1)"%string; "  - Renouncing::RunnerUp: O(1)"%string]); (Variant "remove_member"%string [(Field (Some "who"%string) 65%N (Some "AccountIdLookupOf<T>"%string) []); (Field (Some "slash_bond"%string) 45%N (Some "bool"%string) []); (Field (Some "rerun_election"%string) 45%N (Some "bool"%string) [])] 4%N ["Remove a particular member from the set. This is effective immediately and the bond of"%string; "the outgoing member is slashed."%string; ""%string; "If a runner-up is available, then the best runner-up will be removed and replaces the"%string; "outgoing member. Otherwise, if `rerun_election` is `true`, a new phragmen election is"%string; "started, else, nothing happens."%string; ""%string; "If `slash_bond` is set to true, the bond of the member being removed is slashed. Else,"%string; "it is returned."%string; ""%string; "The dispatch origin of this call must be root."%string; ""%string; "Note that this does not affect the designated block number of the next election."%string; ""%string; "## Complexity"%string; "- Check details of remove_and_replace_member() and do_phragmen()."%string]); (Variant "clean_defunct_voters"%string [(Field (Some "num_voters"%string) 4%N (Some "u32"%string) []); (Field (Some "num_defunct"%string) 4%N (Some "u32"%string) [])] 5%N ["Clean all voters who are defunct (i.e. they do not serve any purpose at all). The"%string; "deposit of the removed voters are returned."%string; ""%string; "This is an root function to be used only for cleaning the state."%string; ""%string; "The dispatch origin of this call must be root."%string; ""%string; "## Complexity"%string; "- Check is_defunct_voter() details."%string])]) ["Contains one variant per dispatchable that can be called by an extrinsic."%string]).
Definition md_t97 : ty := (Ty ["pallet_elections_phragmen"%string; "Renouncing"%string] [] (TVariant [(Variant "Member"%string [] 0%N []); (Variant "RunnerUp"%string [] 1%N []); (Variant "Candidate"%string [(Field None 66%N (Some "u32"%string) [])] 2%N [])]) []).
Definition md_t98 : ty := (Ty ["pallet_membership"%string; "pallet"%string; "Call"%string] [("T"%string,None); ("I"%string,None)] (TVariant [(Variant "add_member"%string [(Field (Some "who"%string) 65%N (Some "AccountIdLookupOf<T>"%string) [])] 0%N ["Add a member `who` to the set."%string; ""%string; "May only be called from `T::AddOrigin`."%string]); (Variant "remove_member"%string [(Field (Some "who"%string) 65%N (Some "AccountIdLookupOf<T>"%string) [])] 1%N ["Remove a member `who` from the set."%string; ""%string; "May only be called from `T::RemoveOrigin`."%string]); (Variant "swap_member"%string [(Field (Some "remove"%string) 65%N (Some "AccountIdLookupOf<T>"%string) []); (Field (Some "add"%string) 65%N (Some "AccountIdLookupOf<T>"%string) [])] 2%N ["Swap out one member `remove` for another `add`."%string; ""%string; "May only be called from `T::SwapOrigin`."%string; ""%string; "Prime membership is *not* passed from `remove` to `add`, if extant."%string]); (Variant "reset_members"%string [(Field (Some "members"%string) 37%N (Some "Vec<T::AccountId>"%string) [])] 3%N ["Change the membership to a new set, disregarding the existing membership. Be nice and"%string; "pass `members` pre-sorted."%string; ""%string; "May only be called from `T::ResetOrigin`."%string]); (Variant "change_key"%string [(Field (Some "new"%string) 65%N (Some "AccountIdLookupOf<T>"%string) [])] 4%N ["Swap out the sending member for some other key `new`."%string; ""%string; "May only be called from `Signed` origin of a current member."%string; ""%string; "Prime membership is passed from the origin account to `new`, if extant."%string]); (Variant "set_prime"%string [(Field (Some "who"%string) 65%N (Some "AccountIdLookupOf<T>"%string) [])] 5%N ["Set the prime member. Must be a current member."%string; ""%string; "May only be called from `T::PrimeOrigin`."%string]); (Variant "clear_prime"%string [] 6%N ["Remove the prime member if it exists."%string; ""%string; "May only be called from `T::PrimeOrigin`."%string])]) ["Contains one variant per dispatchable that can be called by an extrinsic."%string]).
Definition md_t99 : ty := (Ty ["pallet_membership"%string; "pallet"%string; "Call"%string] [("T"%string,None); ("I"%string,None)] (TVariant [(Variant "add_member"%string [(Field (Some "who"%string) 65%N (Some "AccountIdLookupOf<T>"%string) [])] 0%N ["Add a member `who` to the set."%string; ""%string; "May only be called from `T::AddOrigin`."%string]); (Variant "remove_member"%string [(Field (Some "who"%string) 65%N (Some "AccountIdLookupOf<T>"%string) [])] 1%N ["Remove a member `who` from the set."%string; ""%string; "May only be called from `T::RemoveOrigin`."%string]); (Variant "swap_member"%string [(Field (Some "remove"%string) 65%N (Some "AccountIdLookupOf<T>"%string) []); (Field (Some "add"%string) 65%N (Some "AccountIdLookupOf<T>"%string) [])] 2%N ["Swap out one member `remove` for another `add`."%string; ""%string; "May only be called from `T::SwapOrigin`."%string; ""%string; "Prime membership is *not* passed from `remove` to `add`, if extant."%string]); (Variant "reset_members"%string [(Field (Some "members"%string) 37%N (Some "Vec<T::AccountId>"%string) [])] 3%N ["Change the membership to a new set, disregarding the existing membership. Be nice and"%string; "pass `members` pre-sorted."%string; ""%string; "May only be called from `T::ResetOrigin`."%string]); (Variant "change_key"%string [(Field (Some "new"%string) 65%N (Some "AccountIdLookupOf<T>"%string) [])] 4%N ["Swap out the sending member for some other key `new`."%string; ""%string; "May only be called from `Signed` origin of a current member."%string; ""%string; "Prime membership is passed from the origin account to `new`, if extant."%string]); (Variant "set_prime"%string [(Field (Some "who"%string) 65%N (Some "AccountIdLookupOf<T>"%string) [])] 5%N ["Set the prime member. Must be a current member."%string; ""%string; "May only be called from `T::PrimeOrigin`."%string]); (Variant "clear_prime"%string [] 6%N ["Remove the prime member if it exists."%string; ""%string; "May only be called from `T::PrimeOrigin`."%string])]) ["Contains one variant per dispatchable that can be called by an extrinsic."%string]).
Definition md_t100 : ty := (Ty ["pallet_conviction_voting"%string; "pallet"%string; "Call"%string] [("T"%string,None); ("I"%string,None)] (TVariant [(Variant "vote"%string [(Field (Some "poll_index"%string) 66%N (Some "PollIndexOf<T, I>"%string) []); (Field (Some "vote"%string) 101%N (Some "AccountVote<BalanceOf<T, I>>"%string) [])] 0%N ["Vote in a poll. If `vote.is_aye()`, the vote is to enact the proposal;"%string; "otherwise it is a vote to keep the status quo."%string; ""%string; "The dispatch origin of this call must be _Signed_."%string; ""%string; "- `poll_index`: The index of the poll to vote for."%string; "- `vote`: The vote configuration."%string; ""%string; "Weight: `O(R)` where R is the number of polls the voter has voted on."%string]); (Variant "delegate"%string [(Field (Some "class"%string) 56%N (Some "ClassOf<T, I>"%string) []); (Field (Some "to"%string) 65%N (Some "AccountIdLookupOf<T>"%string) []); (Field (Some "conviction"%string) 103%N (Some "Conviction"%string) []); (Field (Some "balance"%string) 6%N (Some "BalanceOf<T, I>"%string) [])] 1%N ["Delegate the voting power (with some given conviction) of the sending account for a"%string; "particular class of polls."%string; ""%string; "The balance delegated is locked for as long as it's delegated, and thereafter for the"%string; "time appropriate for the conviction's lock period."%string; ""%string; "The dispatch origin of this call must be _Signed_, and the signing account must either:"%string; "  - be delegating already; or"%string; "  - have no voting activity (if there is, then it will need to be removed/consolidated"%string; "    through `reap_vote` or `unvote`)."%string; ""%string; "- `to`: The account whose voting the `target` account's voting power will follow."%string; "- `class`: The class of polls to delegate. To delegate multiple classes, multiple calls"%string; "  to this function are required."%string; "- `conviction`: The conviction that will be attached to the delegated votes. When the"%string; "  account is undelegated, the funds will be locked for the corresponding period."%string; "- `balance`: The amount of the account's balance to be used in delegating. This must not"%string; "  be more than the account's current balance."%string; ""%string; "Emits `Delegated`."%string; ""%string; "Weight: `O(R)` where R is the number of polls the voter delegating to has"%string; "  voted on. Weight is initially charged as if maximum votes, but is refunded later."%string]); (Variant "undelegate"%string [(Field (Some "class"%string) 56%N (Some "ClassOf<T, I>"%string) [])] 2%N ["Undelegate the voting power of the sending account for a particular class of polls."%string; ""%string; "Tokens may be unlocked following once an amount of time consistent with the lock period"%string; "of the conviction with which the delegation was issued has passed."%string; ""%string; "The dispatch origin of this call must be _Signed_ and the signing account must be"%string; "currently delegating."%string; ""%string; "- `class`: The class of polls to remove the delegation from."%string; ""%string; "Emits `Undelegated`."%string; ""%string; "Weight: `O(R)` where R is the number of polls the voter delegating to has"%string; "  voted on. Weight is initially charged as if maximum votes, but is refunded later."%string]); (Variant "unlock"%string [(Field (Some "class"%string) 56%N (Some "ClassOf<T, I>"%string) []); (Field (Some "target"%string) 65%N (Some "AccountIdLookupOf<T>"%string) [])] 3%N ["Remove the lock caused by prior voting/delegating which has expired within a particular"%string; "class."%string; ""%string; "The dispatch origin of this call must be _Signed_."%string; ""%string; "- `class`: The class of polls to unlock."%string; "- `target`: The account to remove the lock on."%string; ""%string; "Weight: `O(R)` with R number of vote of target."%string]); (Variant "remove_vote"%string [(Field (Some "class"%string) 104%N (Some "Option<ClassOf<T, I>>"%string) []); (Field (Some "index"%string) 4%N (Some "PollIndexOf<T, I>"%string) [])] 4%N ["Remove a vote for a poll."%string; ""%string; "If:"%string; "- the poll was cancelled, or"%string; "- the poll is ongoing, or"%string; "- the poll has ended such that"%string; "  - the vote of the account was in opposition to the result; or"%string; "  - there was no conviction to the account's vote; or"%string; "  - the account made a split vote"%string; "...then the vote is removed cleanly and a following call to `unlock` may result in more"%string; "funds being available."%string; ""%string; "If, however, the poll has ended and:"%string; "- it finished corresponding to the vote of the account, and"%string; "- the account made a standard vote with conviction, and"%string; "- the lock period of the conviction is not over"%string; "...then the lock will be aggregated into the overall account's lock, which may involve"%string; "*overlocking* (where the two locks are combined into a single lock that is the maximum"%string; "of both the amount locked and the time is it locked for)."%string; ""%string; "The dispatch origin of this call must be _Signed_, and the signer must have a vote"%string; "registered for poll `index`."%string; ""%string; "- `index`: The index of poll of the vote to be removed."%string; "- `class`: Optional parameter, if given it indicates the class of the poll. For polls"%string; "  which have finished or are cancelled, this must be `Some`."%string; ""%string; "Weight: `O(R + log R)` where R is the number of polls that `target` has voted on."%string; "  Weight is calculated for the maximum number of vote."%string]); (Variant "remove_other_vote"%string [(Field (Some "target"%string) 65%N (Some "AccountIdLookupOf<T>"%string) []); (Field (Some "class"%string) 56%N (Some "ClassOf<T, I>"%string) []); (Field (Some "index"%string) 4%N (Some "PollIndexOf<T, I>"%string) [])] 5%N ["Remove a vote for a poll."%string; ""%string; "If the `target` is equal to the signer, then this function is exactly equivalent to"%string; "`remove_vote`. If not equal to the signer, then the vote must have expired,"%string; "either because the poll was cancelled, because the voter lost the poll or"%string; "because the conviction period is over."%string; ""%string; "The dispatch origin of this call must be _Signed_."%string; ""%string; "- `target`: The account of the vote to be removed; this account must have voted for poll"%string; "  `index`."%string; "- `index`: The index of poll of the vote to be removed."%string; "- `class`: The class of the poll."%string; ""%string; "Weight: `O(R + log R)` where R is the number of polls that `target` has voted on."%string; "  Weight is calculated for the maximum number of vote."%string])]) ["Contains one variant per dispatchable that can be called by an extrinsic."%string]).
Definition md_t101 : ty := (Ty ["pallet_conviction_voting"%string; "vote"%string; "AccountVote"%string] [("Balance"%string,(Some 6%N))] (TVariant [(Variant "Standard"%string [(Field (Some "vote"%string) 102%N (Some "Vote"%string) []); (Field (Some "balance"%string) 6%N (Some "Balance"%string) [])] 0%N []); (Variant "Split"%string [(Field (Some "aye"%string) 6%N (Some "Balance"%string) []); (Field (Some "nay"%string) 6%N (Some "Balance"%string) [])] 1%N []); (Variant "SplitAbstain"%string [(Field (Some "aye"%string) 6%N (Some "Balance"%string) []); (Field (Some "nay"%string) 6%N (Some "Balance"%string) []); (Field (Some "abstain"%string) 6%N (Some "Balance"%string) [])] 2%N [])]) []).
Definition md_t102 : ty := (Ty ["pallet_conviction_voting"%string; "vote"%string; "Vote"%string] [] (TComposite [(Field None 2%N None [])]) []).
Definition md_t103 : ty := (Ty ["pallet_conviction_voting"%string; "conviction"%string; "Conviction"%string] [] (TVariant [(Variant "None"%string [] 0%N []); (Variant "Locked1x"%string [] 1%N []); (Variant "Locked2x"%string [] 2%N []); (Variant "Locked3x"%string [] 3%N []); (Variant "Locked4x"%string [] 4%N []); (Variant "Locked5x"%string [] 5%N []); (Variant "Locked6x"%string [] 6%N [])]) []).
Definition md_t104 : ty := (Ty ["Option"%string] [("T"%string,(Some 56%N))] (TVariant [(Variant "None"%string [] 0%N []); (Variant "Some"%string [(Field None 56%N None [])] 1%N [])]) []).
Definition md_t105 : ty := (Ty ["pallet_referenda"%string; "pallet"%string; "Call"%string] [("T"%string,None); ("I"%string,None)] (TVariant [(Variant "submit"%string [(Field (Some "proposal_origin"%string) 106%N (Some "Box<PalletsOriginOf<T>>"%string) []); (Field (Some "proposal"%string) 57%N (Some "BoundedCallOf<T, I>"%string) []); (Field (Some "enactment_moment"%string) 121%N (Some "DispatchTime<T::BlockNumber>"%string) [])] 0%N ["Propose a referendum on a privileged action."%string; ""%string; "- `origin`: must be `SubmitOrigin` and the account must have `SubmissionDeposit` funds"%string; "  available."%string; "- `proposal_origin`: The origin from which the proposal should be executed."%string; "- `proposal`: The proposal."%string; "- `enactment_moment`: The moment that the proposal should be enacted."%string; ""%string; "Emits `Submitted`."%string]); (Variant "place_decision_deposit"%string [(Field (Some "index"%string) 4%N (Some "ReferendumIndex"%string) [])] 1%N ["Post the Decision Deposit for a referendum."%string; ""%string; "- `origin`: must be `Signed` and the account must have funds available for the"%string; "  referendum's track's Decision Deposit."%string; "- `index`: The index of the submitted referendum whose Decision Deposit is yet to be"%string; "  posted."%string; ""%string; "Emits `DecisionDepositPlaced`."%string]); (Variant "refund_decision_deposit"%string [(Field (Some "index"%string) 4%N (Some "ReferendumIndex"%string) [])] 2%N ["Refund the Decision Deposit for a closed referendum back to the depositor."%string; ""%string; "- `origin`: must be `Signed` or `Root`."%string; "- `index`: The index of a closed referendum whose Decision Deposit has not yet been"%string; "  refunded."%string; ""%string; "Emits `DecisionDepositRefunded`."%string]); (Variant "cancel"%string [(Field (Some "index"%string) 4%N (Some "ReferendumIndex"%string) [])] 3%N ["Cancel an ongoing referendum."%string; ""%string; "- `origin`: must be the `CancelOrigin`."%string; "- `index`: The index of the referendum to be cancelled."%string; ""%string; "Emits `Cancelled`."%string]); (Variant "kill"%string [(Field (Some "index"%string) 4%N (Some "ReferendumIndex"%string) [])] 4%N ["Cancel an ongoing referendum and slash the deposits."%string; ""%string; "- `origin`: must be the `KillOrigin`."%string; "- `index`: The index of the referendum to be cancelled."%string; ""%string; "Emits `Killed` and `DepositSlashed`."%string]); (Variant "nudge_referendum"%string [(Field (Some "index"%string) 4%N (Some "ReferendumIndex"%string) [])] 5%N ["Advance a referendum onto its next logical state. Only used internally."%string; ""%string; "- `origin`: must be `Root`."%string; "- `index`: the referendum to be advanced."%string]); (Variant "one_fewer_deciding"%string [(Field (Some "track"%string) 56%N (Some "TrackIdOf<T, I>"%string) [])] 6%N ["Advance a track onto its next logical state. Only used internally."%string; ""%string; "- `origin`: must be `Root`."%string; "- `track`: the track to be advanced."%string; ""%string; "Action item for when there is now one fewer referendum in the deciding phase and the"%string; "`DecidingCount` is not yet updated. This means that we should either:"%string; "- begin deciding another referendum (and leave `DecidingCount` alone); or"%string; "- decrement `DecidingCount`."%string]); (Variant "refund_submission_deposit"%string [(Field (Some "index"%string) 4%N (Some "ReferendumIndex"%string) [])] 7%N ["Refund the Submission Deposit for a closed referendum back to the depositor."%string; ""%string; "- `origin`: must be `Signed` or `Root`."%string; "- `index`: The index of a closed referendum whose Submission Deposit has not yet been"%string; "  refunded."%string; ""%string; "Emits `SubmissionDepositRefunded`."%string]); (Variant "set_metadata"%string [(Field (Some "index"%string) 4%N (Some "ReferendumIndex"%string) []); (Field (Some "maybe_hash"%string) 92%N (Some "Option<PreimageHash>"%string) [])] 8%N ["Set or clear metadata of a referendum."%string; ""%string; "Parameters:"%string; "- `origin`: Must be `Signed` by a creator of a referendum or by anyone to clear a"%string; "  metadata of a finished referendum."%string; "- `index`:  The index of a referendum to set or clear metadata for."%string; "- `maybe_hash`: The hash of an on-chain stored preimage. `None` to clear a metadata."%string])]) ["Contains one variant per dispatchable that can be called by an extrinsic."%string]).
Definition md_t106 : ty := (Ty ["bifrost_polkadot_runtime"%string; "OriginCaller"%string] [] (TVariant [(Variant "system"%string [(Field None 107%N (Some "frame_system::Origin<Runtime>"%string) [])] 0%N []); (Variant "Council"%string [(Field None 108%N (Some "pallet_collective::Origin<Runtime, pallet_collective::Instance1>"%string) [])] 31%N []); (Variant "TechnicalCommittee"%string [(Field None 109%N (Some "pallet_collective::Origin<Runtime, pallet_collective::Instance2>"%string) [])] 32%N []); (Variant "Origins"%string [(Field None 110%N (Some "custom_origins::Origin"%string) [])] 38%N []); (Variant "PolkadotXcm"%string [(Field None 111%N (Some "pallet_xcm::Origin"%string) [])] 41%N []); (Variant "CumulusXcm"%string [(Field None 119%N (Some "cumulus_pallet_xcm::Origin"%string) [])] 42%N []); (Variant "Void"%string [(Field None 120%N (Some "self::sp_api_hidden_includes_construct_runtime::hidden_include::Void"%string) [])] 6%N [])]) []).
Definition md_t107 : ty := (Ty ["frame_support"%string; "dispatch"%string; "RawOrigin"%string] [("AccountId"%string,(Some 0%N))] (TVariant [(Variant "Root"%string [] 0%N []); (Variant "Signed"%string [(Field None 0%N (Some "AccountId"%string) [])] 1%N []); (Variant "None"%string [] 2%N [])]) []).
Definition md_t108 : ty := (Ty ["pallet_collective"%string; "RawOrigin"%string] [("AccountId"%string,(Some 0%N)); ("I"%string,None)] (TVariant [(Variant "Members"%string [(Field None 4%N (Some "MemberCount"%string) []); (Field None 4%N (Some "MemberCount"%string) [])] 0%N []); (Variant "Member"%string [(Field None 0%N (Some "AccountId"%string) [])] 1%N []); (Variant "_Phantom"%string [] 2%N [])]) []).
Definition md_t109 : ty := (Ty ["pallet_collective"%string; "RawOrigin"%string] [("AccountId"%string,(Some 0%N)); ("I"%string,None)] (TVariant [(Variant "Members"%string [(Field None 4%N (Some "MemberCount"%string) []); (Field None 4%N (Some "MemberCount"%string) [])] 0%N []); (Variant "Member"%string [(Field None 0%N (Some "AccountId"%string) [])] 1%N []); (Variant "_Phantom"%string [] 2%N [])]) []).
Definition md_t110 : ty := (Ty ["bifrost_polkadot_runtime"%string; "governance"%string; "origins"%string; "custom_origins"%string; "Origin"%string] [] (TVariant [(Variant "WhitelistedCaller"%string [] 0%N []); (Variant "FellowshipAdmin"%string [] 1%N []); (Variant "ReferendumCanceller"%string [] 2%N []); (Variant "ReferendumKiller"%string [] 3%N []); (Variant "ValidatorElection"%string [] 4%N []); (Variant "SystemStakingAdmin"%string [] 5%N []); (Variant "SALPAdmin"%string [] 6%N []); (Variant "FellowshipInitiates"%string [] 7%N []); (Variant "Fellows"%string [] 8%N []); (Variant "FellowshipExperts"%string [] 9%N []); (Variant "FellowshipMasters"%string [] 10%N []); (Variant "Fellowship1Dan"%string [] 11%N []); (Variant "Fellowship2Dan"%string [] 12%N []); (Variant "Fellowship3Dan"%string [] 13%N []); (Variant "Fellowship4Dan"%string [] 14%N []); (Variant "Fellowship5Dan"%string [] 15%N []); (Variant "Fellowship6Dan"%string [] 16%N []); (Variant "Fellowship7Dan"%string [] 17%N []); (Variant "Fellowship8Dan"%string [] 18%N []); (Variant "Fellowship9Dan"%string [] 19%N []); (Variant "TechAdmin"%string [] 20%N []); (Variant "CoreAdmin"%string [] 21%N [])]) []).
Definition md_t111 : ty := (Ty ["pallet_xcm"%string; "pallet"%string; "Origin"%string] [] (TVariant [(Variant "Xcm"%string [(Field None 112%N (Some "MultiLocation"%string) [])] 0%N []); (Variant "Response"%string [(Field None 112%N (Some "MultiLocation"%string) [])] 1%N [])]) []).
Definition md_t112 : ty := (Ty ["xcm"%string; "v3"%string; "multilocation"%string; "MultiLocation"%string] [] (TComposite [(Field (Some "parents"%string) 2%N (Some "u8"%string) []); (Field (Some "interior"%string) 113%N (Some "Junctions"%string) [])]) []).
Definition md_t113 : ty := (Ty ["xcm"%string; "v3"%string; "junctions"%string; "Junctions"%string] [] (TVariant [(Variant "Here"%string [] 0%N []); (Variant "X1"%string [(Field None 114%N (Some "Junction"%string) [])] 1%N []); (Variant "X2"%string [(Field None 114%N (Some "Junction"%string) []); (Field None 114%N (Some "Junction"%string) [])] 2%N []); (Variant "X3"%string [(Field None 114%N (Some "Junction"%string) []); (Field None 114%N (Some "Junction"%string) []); (Field None 114%N (Some "Junction"%string) [])] 3%N []); (Variant "X4"%string [(Field None 114%N (Some "Junction"%string) []); (Field None 114%N (Some "Junction"%string) []); (Field None 114%N (Some "Junction"%string) []); (Field None 114%N (Some "Junction"%string) [])] 4%N []); (Variant "X5"%string [(Field None 114%N (Some "Junction"%string) []); (Field None 114%N (Some "Junction"%string) []); (Field None 114%N (Some "Junction"%string) []); (Field None 114%N (Some "Junction"%string) []); (Field None 114%N (Some "Junction"%string) [])] 5%N []); (Variant "X6"%string [(Field None 114%N (Some "Junction"%string) []); (Field None 114%N (Some "Junction"%string) []); (Field None 114%N (Some "Junction"%string) []); (Field None 114%N (Some "Junction"%string) []); (Field None 114%N (Some "Junction"%string) []); (Field None 114%N (Some "Junction"%string) [])] 6%N []); (Variant "X7"%string [(Field None 114%N (Some "Junction"%string) []); (Field None 114%N (Some "Junction"%string) []); (Field None 114%N (Some "Junction"%string) []); (Field None 114%N (Some "Junction"%string) []); (Field None 114%N (Some "Junction"%string) []); (Field None 114%N (Some "Junction"%string) []); (Field None 114%N (Some "Junction"%string) [])] 7%N []); (Variant "X8"%string [(Field None 114%N (Some "Junction"%string) []); (Field None 114%N (Some "Junction"%string) []); (Field None 114%N (Some "Junction"%string) []); (Field None 114%N (Some "Junction"%string) []); (Field None 114%N (Some "Junction"%string) []); (Field None 114%N (Some "Junction"%string) []); (Field None 114%N (Some "Junction"%string) []); (Field None 114%N (Some "Junction"%string) [])] 8%N [])]) []).
Definition md_t114 : ty := (Ty ["xcm"%string; "v3"%string; "junction"%string; "Junction"%string] [] (TVariant [(Variant "Parachain"%string [(Field None 66%N (Some "u32"%string) [])] 0%N []); (Variant "AccountId32"%string [(Field (Some "network"%string) 115%N (Some "Option<NetworkId>"%string) []); (Field (Some "id"%string) 1%N (Some "[u8; 32]"%string) [])] 1%N []); (Variant "AccountIndex64"%string [(Field (Some "network"%string) 115%N (Some "Option<NetworkId>"%string) []); (Field (Some "index"%string) 10%N (Some "u64"%string) [])] 2%N []); (Variant "AccountKey20"%string [(Field (Some "network"%string) 115%N (Some "Option<NetworkId>"%string) []); (Field (Some "key"%string) 67%N (Some "[u8; 20]"%string) [])] 3%N []); (Variant "PalletInstance"%string [(Field None 2%N (Some "u8"%string) [])] 4%N []); (Variant "GeneralIndex"%string [(Field None 83%N (Some "u128"%string) [])] 5%N []); (Variant "GeneralKey"%string [(Field (Some "length"%string) 2%N (Some "u8"%string) []); (Field (Some "data"%string) 1%N (Some "[u8; 32]"%string) [])] 6%N []); (Variant "OnlyChild"%string [] 7%N []); (Variant "Plurality"%string [(Field (Some "id"%string) 117%N (Some "BodyId"%string) []); (Field (Some "part"%string) 118%N (Some "BodyPart"%string) [])] 8%N []); (Variant "GlobalConsensus"%string [(Field None 116%N (Some "NetworkId"%string) [])] 9%N [])]) []).
Definition md_t115 : ty := (Ty ["Option"%string] [("T"%string,(Some 116%N))] (TVariant [(Variant "None"%string [] 0%N []); (Variant "Some"%string [(Field None 116%N None [])] 1%N [])]) []).
Definition md_t116 : ty := (Ty ["xcm"%string; "v3"%string; "junction"%string; "NetworkId"%string] [] (TVariant [(Variant "ByGenesis"%string [(Field None 1%N (Some "[u8; 32]"%string) [])] 0%N []); (Variant "ByFork"%string [(Field (Some "block_number"%string) 11%N (Some "u64"%string) []); (Field (Some "block_hash"%string) 1%N (Some "[u8; 32]"%string) [])] 1%N []); (Variant "Polkadot"%string [] 2%N []); (Variant "Kusama"%string [] 3%N []); (Variant "Westend"%string [] 4%N []); (Variant "Rococo"%string [] 5%N []); (Variant "Wococo"%string [] 6%N []); (Variant "Ethereum"%string [(Field (Some "chain_id"%string) 10%N (Some "u64"%string) [])] 7%N []); (Variant "BitcoinCore"%string [] 8%N []); (Variant "BitcoinCash"%string [] 9%N [])]) []).
Definition md_t117 : ty := (Ty ["xcm"%string; "v3"%string; "junction"%string; "BodyId"%string] [] (TVariant [(Variant "Unit"%string [] 0%N []); (Variant "Moniker"%string [(Field None 17%N (Some "[u8; 4]"%string) [])] 1%N []); (Variant "Index"%string [(Field None 66%N (Some "u32"%string) [])] 2%N []); (Variant "Executive"%string [] 3%N []); (Variant "Technical"%string [] 4%N []); (Variant "Legislative"%string [] 5%N []); (Variant "Judicial"%string [] 6%N []); (Variant "Defense"%string [] 7%N []); (Variant "Administration"%string [] 8%N []); (Variant "Treasury"%string [] 9%N [])]) []).
Definition md_t118 : ty := (Ty ["xcm"%string; "v3"%string; "junction"%string; "BodyPart"%string] [] (TVariant [(Variant "Voice"%string [] 0%N []); (Variant "Members"%string [(Field (Some "count"%string) 66%N (Some "u32"%string) [])] 1%N []); (Variant "Fraction"%string [(Field (Some "nom"%string) 66%N (Some "u32"%string) []); (Field (Some "denom"%string) 66%N (Some "u32"%string) [])] 2%N []); (Variant "AtLeastProportion"%string [(Field (Some "nom"%string) 66%N (Some "u32"%string) []); (Field (Some "denom"%string) 66%N (Some "u32"%string) [])] 3%N []); (Variant "MoreThanProportion"%string [(Field (Some "nom"%string) 66%N (Some "u32"%string) []); (Field (Some "denom"%string) 66%N (Some "u32"%string) [])] 4%N [])]) []).
Definition md_t119 : ty := (Ty ["cumulus_pallet_xcm"%string; "pallet"%string; "Origin"%string] [] (TVariant [(Variant "Relay"%string [] 0%N []); (Variant "SiblingParachain"%string [(Field None 77%N (Some "ParaId"%string) [])] 1%N [])]) []).
Definition md_t120 : ty := (Ty ["sp_core"%string; "Void"%string] [] (TVariant []) []).
Definition md_t121 : ty := (Ty ["frame_support"%string; "traits"%string; "schedule"%string; "DispatchTime"%string] [("BlockNumber"%string,(Some 4%N))] (TVariant [(Variant "At"%string [(Field None 4%N (Some "BlockNumber"%string) [])] 0%N []); (Variant "After"%string [(Field None 4%N (Some "BlockNumber"%string) [])] 1%N [])]) []).
Definition md_t122 : ty := (Ty ["pallet_whitelist"%string; "pallet"%string; "Call"%string] [("T"%string,None)] (TVariant [(Variant "whitelist_call"%string [(Field (Some "call_hash"%string) 12%N (Some "PreimageHash"%string) [])] 0%N []); (Variant "remove_whitelisted_call"%string [(Field (Some "call_hash"%string) 12%N (Some "PreimageHash"%string) [])] 1%N []); (Variant "dispatch_whitelisted_call"%string [(Field (Some "call_hash"%string) 12%N (Some "PreimageHash"%string) []); (Field (Some "call_encoded_len"%string) 4%N (Some "u32"%string) []); (Field (Some "call_weight_witness"%string) 9%N (Some "Weight"%string) [])] 2%N []); (Variant "dispatch_whitelisted_call_with_preimage"%string [(Field (Some "call"%string) 58%N (Some "Box<<T as Config>::RuntimeCall>"%string) [])] 3%N [])]) ["Contains one variant per dispatchable that can be called by an extrinsic."%string]).
Definition md_t123 : ty := (Ty ["cumulus_pallet_xcmp_queue"%string; "pallet"%string; "Call"%string] [("T"%string,None)] (TVariant [(Variant "service_overweight"%string [(Field (Some "index"%string) 11%N (Some "OverweightIndex"%string) []); (Field (Some "weight_limit"%string) 9%N (Some "Weight"%string) [])] 0%N ["Services a single overweight XCM."%string; ""%string; "- `origin`: Must pass `ExecuteOverweightOrigin`."%string; "- `index`: The index of the overweight XCM to service"%string; "- `weight_limit`: The amount of weight that XCM execution may take."%string; ""%string; "Errors:"%string; "- `BadOverweightIndex`: XCM under `index` is not found in the `Overweight` storage map."%string; "- `BadXcm`: XCM under `index` cannot be properly decoded into a valid XCM format."%string; "- `WeightOverLimit`: XCM execution may use greater `weight_limit`."%string; ""%string; "Events:"%string; "- `OverweightServiced`: On success."%string]); (Variant "suspend_xcm_execution"%string [] 1%N ["Suspends all XCM executions for the XCMP queue, regardless of the sender's origin."%string; ""%string; "- `origin`: Must pass `ControllerOrigin`."%string]); (Variant "resume_xcm_execution"%string [] 2%N ["Resumes all XCM executions for the XCMP queue."%string; ""%string; "Note that this function doesn't change the status of the in/out bound channels."%string; ""%string; "- `origin`: Must pass `ControllerOrigin`."%string]); (Variant "update_suspend_threshold"%string [(Field (Some "new"%string) 4%N (Some "u32"%string) [])] 3%N ["Overwrites the number of pages of messages which must be in the queue for the other side to be told to"%string; "suspend their sending."%string; ""%string; "- `origin`: Must pass `Root`."%string; "- `new`: Desired value for `QueueConfigData.suspend_value`"%string]); (Variant "update_drop_threshold"%string [(Field (Some "new"%string) 4%N (Some "u32"%string) [])] 4%N ["Overwrites the number of pages of messages which must be in the queue after which we drop any further"%string; "messages from the channel."%string; ""%string; "- `origin`: Must pass `Root`."%string; "- `new`: Desired value for `QueueConfigData.drop_threshold`"%string]); (Variant "update_resume_threshold"%string [(Field (Some "new"%string) 4%N (Some "u32"%string) [])] 5%N ["Overwrites the number of pages of messages which the queue must be reduced to before it signals that"%string; "message sending may recommence after it has been suspended."%string; ""%string; "- `origin`: Must pass `Root`."%string; "- `new`: Desired value for `QueueConfigData.resume_threshold`"%string]); (Variant "update_threshold_weight"%string [(Field (Some "new"%string) 9%N (Some "Weight"%string) [])] 6%N ["Overwrites the amount of remaining weight under which we stop processing messages."%string; ""%string; "- `origin`: Must pass `Root`."%string; "- `new`: Desired value for `QueueConfigData.threshold_weight`"%string]); (Variant "update_weight_restrict_decay"%string [(Field (Some "new"%string) 9%N (Some "Weight"%string) [])] 7%N ["Overwrites the speed to which the available weight approaches the maximum weight."%string; "A lower number results in a faster progression. A value of 1 makes the entire weight available initially."%string; ""%string; "- `origin`: Must pass `Root`."%string; "- `new`: Desired value for `QueueConfigData.weight_restrict_decay`."%string]); (Variant "update_xcmp_max_individual_weight"%string [(Field (Some "new"%string) 9%N (Some "Weight"%string) [])] 8%N ["Overwrite the maximum amount of weight any individual message may consume."%string; "Messages above this weight go into the overweight queue and may only be serviced explicitly."%string; ""%string; "- `origin`: Must pass `Root`."%string; "- `new`: Desired value for `QueueConfigData.xcmp_max_individual_weight`."%string])]) ["Contains one variant per dispatchable that can be called by an extrinsic."%string]).
Definition md_t124 : ty := (Ty ["pallet_xcm"%string; "pallet"%string; "Call"%string] [("T"%string,None)] (TVariant [(Variant "send"%string [(Field (Some "dest"%string) 125%N (Some "Box<VersionedMultiLocation>"%string) []); (Field (Some "message"%string) 133%N (Some "Box<VersionedXcm<()>>"%string) [])] 0%N []); (Variant "teleport_assets"%string [(Field (Some "dest"%string) 125%N (Some "Box<VersionedMultiLocation>"%string) []); (Field (Some "beneficiary"%string) 125%N (Some "Box<VersionedMultiLocation>"%string) []); (Field (Some "assets"%string) 180%N (Some "Box<VersionedMultiAssets>"%string) []); (Field (Some "fee_asset_item"%string) 4%N (Some "u32"%string) [])] 1%N ["Teleport some assets from the local chain to some destination chain."%string; ""%string; "Fee payment on the destination side is made from the asset in the `assets` vector of"%string; "index `fee_asset_item`. The weight limit for fees is not provided and thus is unlimited,"%string; "with all fees taken as needed from the asset."%string; ""%string; "- `origin`: Must be capable of withdrawing the `assets` and executing XCM."%string; "- `dest`: Destination context for the assets. Will typically be `X2(Parent, Parachain(..))` to send"%string; "  from parachain to parachain, or `X1(Parachain(..))` to send from relay to parachain."%string; "- `beneficiary`: A beneficiary location for the assets in the context of `dest`. Will generally be"%string; "  an `AccountId32` value."%string; "- `assets`: The assets to be withdrawn. The first item should be the currency used to to pay the fee on the"%string; "  `dest` side. May not be empty."%string; "- `fee_asset_item`: The index into `assets` of the item which should be used to pay"%string; "  fees."%string]); (Variant "reserve_transfer_assets"%string [(Field (Some "dest"%string) 125%N (Some "Box<VersionedMultiLocation>"%string) []); (Field (Some "beneficiary"%string) 125%N (Some "Box<VersionedMultiLocation>"%string) []); (Field (Some "assets"%string) 180%N (Some "Box<VersionedMultiAssets>"%string) []); (Field (Some "fee_asset_item"%string) 4%N (Some "u32"%string) [])] 2%N ["Transfer some assets from the local chain to the sovereign account of a destination"%string; "chain and forward a notification XCM."%string; ""%string; "Fee payment on the destination side is made from the asset in the `assets` vector of"%string; "index `fee_asset_item`. The weight limit for fees is not provided and thus is unlimited,"%string; "with all fees taken as needed from the asset."%string; ""%string; "- `origin`: Must be capable of withdrawing the `assets` and executing XCM."%string; "- `dest`: Destination context for the assets. Will typically be `X2(Parent, Parachain(..))` to send"%string; "  from parachain to parachain, or `X1(Parachain(..))` to send from relay to parachain."%string; "- `beneficiary`: A beneficiary location for the assets in the context of `dest`. Will generally be"%string; "  an `AccountId32` value."%string; "- `assets`: The assets to be withdrawn. This should include the assets used to pay the fee on the"%string; "  `dest` side."%string; "- `fee_asset_item`: The index into `assets` of the item which should be used to pay"%string; "  fees."%string]); (Variant "execute"%string [(Field (Some "message"%string) 181%N (Some "Box<VersionedXcm<<T as SysConfig>::RuntimeCall>>"%string) []); (Field (Some "max_weight"%string) 9%N (Some "Weight"%string) [])] 3%N ["Execute an XCM message from a local, signed, origin."%string; ""%string; "An event is deposited indicating whether `msg` could be executed completely or only"%string; "partially."%string; ""%string; "No more than `max_weight` will be used in its attempted execution. If this is less than the"%string; "maximum amount of weight that the message could take to be executed, then no execution"%string; "attempt will be made."%string; ""%string; "NOTE: A successful return to this does *not* imply that the `msg` was executed successfully"%string; "to completion; only that *some* of it was executed."%string]); (Variant "force_xcm_version"%string [(Field (Some "location"%string) 112%N (Some "Box<MultiLocation>"%string) []); (Field (Some "xcm_version"%string) 4%N (Some "XcmVersion"%string) [])] 4%N ["Extoll that a particular destination can be communicated with through a particular"%string; "version of XCM."%string; ""%string; "- `origin`: Must be an origin specified by AdminOrigin."%string; "- `location`: The destination that is being described."%string; "- `xcm_version`: The latest version of XCM that `location` supports."%string]); (Variant "force_default_xcm_version"%string [(Field (Some "maybe_xcm_version"%string) 91%N (Some "Option<XcmVersion>"%string) [])] 5%N ["Set a safe XCM version (the version that XCM should be encoded with if the most recent"%string; "version a destination can accept is unknown)."%string; ""%string; "- `origin`: Must be an origin specified by AdminOrigin."%string; "- `maybe_xcm_version`: The default XCM encoding version, or `None` to disable."%string]); (Variant "force_subscribe_version_notify"%string [(Field (Some "location"%string) 125%N (Some "Box<VersionedMultiLocation>"%string) [])] 6%N ["Ask a location to notify us regarding their XCM version and any changes to it."%string; ""%string; "- `origin`: Must be an origin specified by AdminOrigin."%string; "- `location`: The location to which we should subscribe for XCM version notifications."%string]); (Variant "force_unsubscribe_version_notify"%string [(Field (Some "location"%string) 125%N (Some "Box<VersionedMultiLocation>"%string) [])] 7%N ["Require that a particular destination should no longer notify us regarding any XCM"%string; "version changes."%string; ""%string; "- `origin`: Must be an origin specified by AdminOrigin."%string; "- `location`: The location to which we are currently subscribed for XCM version"%string; "  notifications which we no longer desire."%string]); (Variant "limited_reserve_transfer_assets"%string [(Field (Some "dest"%string) 125%N (Some "Box<VersionedMultiLocation>"%string) []); (Field (Some "beneficiary"%string) 125%N (Some "Box<VersionedMultiLocation>"%string) []); (Field (Some "assets"%string) 180%N (Some "Box<VersionedMultiAssets>"%string) []); (Field (Some "fee_asset_item"%string) 4%N (Some "u32"%string) []); (Field (Some "weight_limit"%string) 179%N (Some "WeightLimit"%string) [])] 8%N ["Transfer some assets from the local chain to the sovereign account of a destination"%string; "chain and forward a notification XCM."%string; ""%string; "Fee payment on the destination side is made from the asset in the `assets` vector of"%string; "index `fee_asset_item`, up to enough to pay for `weight_limit` of weight. If more weight"%string; "is needed than `weight_limit`, then the operation will fail and the assets send may be"%string; "at risk."%string; ""%string; "- `origin`: Must be capable of withdrawing the `assets` and executing XCM."%string; "- `dest`: Destination context for the assets. Will typically be `X2(Parent, Parachain(..))` to send"%string; "  from parachain to parachain, or `X1(Parachain(..))` to send from relay to parachain."%string; "- `beneficiary`: A beneficiary location for the assets in the context of `dest`. Will generally be"%string; "  an `AccountId32` value."%string; "- `assets`: The assets to be withdrawn. This should include the assets used to pay the fee on the"%string; "  `dest` side."%string; "- `fee_asset_item`: The index into `assets` of the item which should be used to pay"%string; "  fees."%string; "- `weight_limit`: The remote-side weight limit, if any, for the XCM fee purchase."%string]); (Variant "limited_teleport_assets"%string [(Field (Some "dest"%string) 125%N (Some "Box<VersionedMultiLocation>"%string) []); (Field (Some "beneficiary"%string) 125%N (Some "Box<VersionedMultiLocation>"%string) []); (Field (Some "assets"%string) 180%N (Some "Box<VersionedMultiAssets>"%string) []); (Field (Some "fee_asset_item"%string) 4%N (Some "u32"%string) []); (Field (Some "weight_limit"%string) 179%N (Some "WeightLimit"%string) [])] 9%N ["Teleport some assets from the local chain to some destination chain."%string; ""%string; "Fee payment on the destination side is made from the asset in the `assets` vector of"%string; "index `fee_asset_item`, up to enough to pay for `weight_limit` of weight. If more weight"%string; "is needed than `weight_limit`, then the operation will fail and the assets send may be"%string; "at risk."%string; ""%string; "- `origin`: Must be capable of withdrawing the `assets` and executing XCM."%string; "- `dest`: Destination context for the assets. Will typically be `X2(Parent, Parachain(..))` to send"%string; "  from parachain to parachain, or `X1(Parachain(..))` to send from relay to parachain."%string; "- `beneficiary`: A beneficiary location for the assets in the context of `dest`. Will generally be"%string; "  an `AccountId32` value."%string; "- `assets`: The assets to be withdrawn. The first item should be the currency used to to pay the fee on the"%string; "  `dest` side. May not be empty."%string; "- `fee_asset_item`: The index into `assets` of the item which should be used to pay"%string; "  fees."%string; "- `weight_limit`: The remote-side weight limit, if any, for the XCM fee purchase."%string]); (Variant "force_suspension"%string [(Field (Some "suspended"%string) 45%N (Some "bool"%string) [])] 10%N ["Set or unset the global suspension state of the XCM executor."%string; ""%string; "- `origin`: Must be an origin specified by AdminOrigin."%string; "- `suspended`: `true` to suspend, `false` to resume."%string])]) ["Contains one variant per dispatchable that can be called by an extrinsic."%string]).
Definition md_t125 : ty := (Ty ["xcm"%string; "VersionedMultiLocation"%string] [] (TVariant [(Variant "V2"%string [(Field None 126%N (Some "v2::MultiLocation"%string) [])] 1%N []); (Variant "V3"%string [(Field None 112%N (Some "v3::MultiLocation"%string) [])] 3%N [])]) []).
Definition md_t126 : ty := (Ty ["xcm"%string; "v2"%string; "multilocation"%string; "MultiLocation"%string] [] (TComposite [(Field (Some "parents"%string) 2%N (Some "u8"%string) []); (Field (Some "interior"%string) 127%N (Some "Junctions"%string) [])]) []).
Definition md_t127 : ty := (Ty ["xcm"%string; "v2"%string; "multilocation"%string; "Junctions"%string] [] (TVariant [(Variant "Here"%string [] 0%N []); (Variant "X1"%string [(Field None 128%N (Some "Junction"%string) [])] 1%N []); (Variant "X2"%string [(Field None 128%N (Some "Junction"%string) []); (Field None 128%N (Some "Junction"%string) [])] 2%N []); (Variant "X3"%string [(Field None 128%N (Some "Junction"%string) []); (Field None 128%N (Some "Junction"%string) []); (Field None 128%N (Some "Junction"%string) [])] 3%N []); (Variant "X4"%string [(Field None 128%N (Some "Junction"%string) []); (Field None 128%N (Some "Junction"%string) []); (Field None 128%N (Some "Junction"%string) []); (Field None 128%N (Some "Junction"%string) [])] 4%N []); (Variant "X5"%string [(Field None 128%N (Some "Junction"%string) []); (Field None 128%N (Some "Junction"%string) []); (Field None 128%N (Some "Junction"%string) []); (Field None 128%N (Some "Junction"%string) []); (Field None 128%N (Some "Junction"%string) [])] 5%N []); (Variant "X6"%string [(Field None 128%N (Some "Junction"%string) []); (Field None 128%N (Some "Junction"%string) []); (Field None 128%N (Some "Junction"%string) []); (Field None 128%N (Some "Junction"%string) []); (Field None 128%N (Some "Junction"%string) []); (Field None 128%N (Some "Junction"%string) [])] 6%N []); (Variant "X7"%string [(Field None 128%N (Some "Junction"%string) []); (Field None 128%N (Some "Junction"%string) []); (Field None 128%N (Some "Junction"%string) []); (Field None 128%N (Some "Junction"%string) []); (Field None 128%N (Some "Junction"%string) []); (Field None 128%N (Some "Junction"%string) []); (Field None 128%N (Some "Junction"%string) [])] 7%N []); (Variant "X8"%string [(Field None 128%N (Some "Junction"%string) []); (Field None 128%N (Some "Junction"%string) []); (Field None 128%N (Some "Junction"%string) []); (Field None 128%N (Some "Junction"%string) []); (Field None 128%N (Some "Junction"%string) []); (Field None 128%N (Some "Junction"%string) []); (Field None 128%N (Some "Junction"%string) []); (Field None 128%N (Some "Junction"%string) [])] 8%N [])]) []).
Definition md_t128 : ty := (Ty ["xcm"%string; "v2"%string; "junction"%string; "Junction"%string] [] (TVariant [(Variant "Parachain"%string [(Field None 66%N (Some "u32"%string) [])] 0%N []); (Variant "AccountId32"%string [(Field (Some "network"%string) 129%N (Some "NetworkId"%string) []); (Field (Some "id"%string) 1%N (Some "[u8; 32]"%string) [])] 1%N []); (Variant "AccountIndex64"%string [(Field (Some "network"%string) 129%N (Some "NetworkId"%string) []); (Field (Some "index"%string) 10%N (Some "u64"%string) [])] 2%N []); (Variant "AccountKey20"%string [(Field (Some "network"%string) 129%N (Some "NetworkId"%string) []); (Field (Some "key"%string) 67%N (Some "[u8; 20]"%string) [])] 3%N []); (Variant "PalletInstance"%string [(Field None 2%N (Some "u8"%string) [])] 4%N []); (Variant "GeneralIndex"%string [(Field None 83%N (Some "u128"%string) [])] 5%N []); (Variant "GeneralKey"%string [(Field None 130%N (Some "WeakBoundedVec<u8, ConstU32<32>>"%string) [])] 6%N []); (Variant "OnlyChild"%string [] 7%N []); (Variant "Plurality"%string [(Field (Some "id"%string) 131%N (Some "BodyId"%string) []); (Field (Some "part"%string) 132%N (Some "BodyPart"%string) [])] 8%N [])]) []).
Definition md_t129 : ty := (Ty ["xcm"%string; "v2"%string; "NetworkId"%string] [] (TVariant [(Variant "Any"%string [] 0%N []); (Variant "Named"%string [(Field None 130%N (Some "WeakBoundedVec<u8, ConstU32<32>>"%string) [])] 1%N []); (Variant "Polkadot"%string [] 2%N []); (Variant "Kusama"%string [] 3%N [])]) []).
Definition md_t130 : ty := (Ty ["bounded_collections"%string; "weak_bounded_vec"%string; "WeakBoundedVec"%string] [("T"%string,(Some 2%N)); ("S"%string,None)] (TComposite [(Field None 13%N (Some "Vec<T>"%string) [])]) []).
Definition md_t131 : ty := (Ty ["xcm"%string; "v2"%string; "BodyId"%string] [] (TVariant [(Variant "Unit"%string [] 0%N []); (Variant "Named"%string [(Field None 130%N (Some "WeakBoundedVec<u8, ConstU32<32>>"%string) [])] 1%N []); (Variant "Index"%string [(Field None 66%N (Some "u32"%string) [])] 2%N []); (Variant "Executive"%string [] 3%N []); (Variant "Technical"%string [] 4%N []); (Variant "Legislative"%string [] 5%N []); (Variant "Judicial"%string [] 6%N []); (Variant "Defense"%string [] 7%N []); (Variant "Administration"%string [] 8%N []); (Variant "Treasury"%string [] 9%N [])]) []).
Definition md_t132 : ty := (Ty ["xcm"%string; "v2"%string; "BodyPart"%string] [] (TVariant [(Variant "Voice"%string [] 0%N []); (Variant "Members"%string [(Field (Some "count"%string) 66%N (Some "u32"%string) [])] 1%N []); (Variant "Fraction"%string [(Field (Some "nom"%string) 66%N (Some "u32"%string) []); (Field (Some "denom"%string) 66%N (Some "u32"%string) [])] 2%N []); (Variant "AtLeastProportion"%string [(Field (Some "nom"%string) 66%N (Some "u32"%string) []); (Field (Some "denom"%string) 66%N (Some "u32"%string) [])] 3%N []); (Variant "MoreThanProportion"%string [(Field (Some "nom"%string) 66%N (Some "u32"%string) []); (Field (Some "denom"%string) 66%N (Some "u32"%string) [])] 4%N [])]) []).
Definition md_t133 : ty := (Ty ["xcm"%string; "VersionedXcm"%string] [("RuntimeCall"%string,None)] (TVariant [(Variant "V2"%string [(Field None 134%N (Some "v2::Xcm<RuntimeCall>"%string) [])] 2%N []); (Variant "V3"%string [(Field None 155%N (Some "v3::Xcm<RuntimeCall>"%string) [])] 3%N [])]) []).
Definition md_t134 : ty := (Ty ["xcm"%string; "v2"%string; "Xcm"%string] [("RuntimeCall"%string,None)] (TComposite [(Field None 135%N (Some "Vec<Instruction<RuntimeCall>>"%string) [])]) []).
Definition md_t135 : ty := (Ty [] [] (TSequence 136%N) []).
Definition md_t136 : ty := (Ty ["xcm"%string; "v2"%string; "Instruction"%string] [("RuntimeCall"%string,None)] (TVariant [(Variant "WithdrawAsset"%string [(Field None 137%N (Some "MultiAssets"%string) [])] 0%N []); (Variant "ReserveAssetDeposited"%string [(Field None 137%N (Some "MultiAssets"%string) [])] 1%N []); (Variant "ReceiveTeleportedAsset"%string [(Field None 137%N (Some "MultiAssets"%string) [])] 2%N []); (Variant "QueryResponse"%string [(Field (Some "query_id"%string) 10%N (Some "QueryId"%string) []); (Field (Some "response"%string) 145%N (Some "Response"%string) []); (Field (Some "max_weight"%string) 10%N (Some "u64"%string) [])] 3%N []); (Variant "TransferAsset"%string [(Field (Some "assets"%string) 137%N (Some "MultiAssets"%string) []); (Field (Some "beneficiary"%string) 126%N (Some "MultiLocation"%string) [])] 4%N []); (Variant "TransferReserveAsset"%string [(Field (Some "assets"%string) 137%N (Some "MultiAssets"%string) []); (Field (Some "dest"%string) 126%N (Some "MultiLocation"%string) []); (Field (Some "xcm"%string) 134%N (Some "Xcm<()>"%string) [])] 5%N []); (Variant "Transact"%string [(Field (Some "origin_type"%string) 149%N (Some "OriginKind"%string) []); (Field (Some "require_weight_at_most"%string) 10%N (Some "u64"%string) []); (Field (Some "call"%string) 150%N (Some "DoubleEncoded<RuntimeCall>"%string) [])] 6%N []); (Variant "HrmpNewChannelOpenRequest"%string [(Field (Some "sender"%string) 66%N (Some "u32"%string) []); (Field (Some "max_message_size"%string) 66%N (Some "u32"%string) []); (Field (Some "max_capacity"%string) 66%N (Some "u32"%string) [])] 7%N []); (Variant "HrmpChannelAccepted"%string [(Field (Some "recipient"%string) 66%N (Some "u32"%string) [])] 8%N []); (Variant "HrmpChannelClosing"%string [(Field (Some "initiator"%string) 66%N (Some "u32"%string) []); (Field (Some "sender"%string) 66%N (Some "u32"%string) []); (Field (Some "recipient"%string) 66%N (Some "u32"%string) [])] 9%N []); (Variant "ClearOrigin"%string [] 10%N []); (Variant "DescendOrigin"%string [(Field None 127%N (Some "InteriorMultiLocation"%string) [])] 11%N []); (Variant "ReportError"%string [(Field (Some "query_id"%string) 10%N (Some "QueryId"%string) []); (Field (Some "dest"%string) 126%N (Some "MultiLocation"%string) []); (Field (Some "max_response_weight"%string) 10%N (Some "u64"%string) [])] 12%N []); (Variant "DepositAsset"%string [(Field (Some "assets"%string) 151%N (Some "MultiAssetFilter"%string) []); (Field (Some "max_assets"%string) 66%N (Some "u32"%string) []); (Field (Some "beneficiary"%string) 126%N (Some "MultiLocation"%string) [])] 13%N []); (Variant "DepositReserveAsset"%string [(Field (Some "assets"%string) 151%N (Some "MultiAssetFilter"%string) []); (Field (Some "max_assets"%string) 66%N (Some "u32"%string) []); (Field (Some "dest"%string) 126%N (Some "MultiLocation"%string) []); (Field (Some "xcm"%string) 134%N (Some "Xcm<()>"%string) [])] 14%N []); (Variant "ExchangeAsset"%string [(Field (Some "give"%string) 151%N (Some "MultiAssetFilter"%string) []); (Field (Some "receive"%string) 137%N (Some "MultiAssets"%string) [])] 15%N []); (Variant "InitiateReserveWithdraw"%string [(Field (Some "assets"%string) 151%N (Some "MultiAssetFilter"%string) []); (Field (Some "reserve"%string) 126%N (Some "MultiLocation"%string) []); (Field (Some "xcm"%string) 134%N (Some "Xcm<()>"%string) [])] 16%N []); (Variant "InitiateTeleport"%string [(Field (Some "assets"%string) 151%N (Some "MultiAssetFilter"%string) []); (Field (Some "dest"%string) 126%N (Some "MultiLocation"%string) []); (Field (Some "xcm"%string) 134%N (Some "Xcm<()>"%string) [])] 17%N []); (Variant "QueryHolding"%string [(Field (Some "query_id"%string) 10%N (Some "QueryId"%string) []); (Field (Some "dest"%string) 126%N (Some "MultiLocation"%string) []); (Field (Some "assets"%string) 151%N (Some "MultiAssetFilter"%string) []); (Field (Some "max_response_weight"%string) 10%N (Some "u64"%string) [])] 18%N []); (Variant "BuyExecution"%string [(Field (Some "fees"%string) 139%N (Some "MultiAsset"%string) []); (Field (Some "weight_limit"%string) 154%N (Some "WeightLimit"%string) [])] 19%N []); (Variant "RefundSurplus"%string [] 20%N []); (Variant "SetErrorHandler"%string [(Field None 134%N (Some "Xcm<RuntimeCall>"%string) [])] 21%N []); (Variant "SetAppendix"%string [(Field None 134%N (Some "Xcm<RuntimeCall>"%string) [])] 22%N []); (Variant "ClearError"%string [] 23%N []); (Variant "ClaimAsset"%string [(Field (Some "assets"%string) 137%N (Some "MultiAssets"%string) []); (Field (Some "ticket"%string) 126%N (Some "MultiLocation"%string) [])] 24%N []); (Variant "Trap"%string [(Field None 10%N (Some "u64"%string) [])] 25%N []); (Variant "SubscribeVersion"%string [(Field (Some "query_id"%string) 10%N (Some "QueryId"%string) []); (Field (Some "max_response_weight"%string) 10%N (Some "u64"%string) [])] 26%N []); (Variant "UnsubscribeVersion"%string [] 27%N [])]) []).
Definition md_t137 : ty := (Ty ["xcm"%string; "v2"%string; "multiasset"%string; "MultiAssets"%string] [] (TComposite [(Field None 138%N (Some "Vec<MultiAsset>"%string) [])]) []).
Definition md_t138 : ty := (Ty [] [] (TSequence 139%N) []).
Definition md_t139 : ty := (Ty ["xcm"%string; "v2"%string; "multiasset"%string; "MultiAsset"%string] [] (TComposite [(Field (Some "id"%string) 140%N (Some "AssetId"%string) []); (Field (Some "fun"%string) 141%N (Some "Fungibility"%string) [])]) []).
Definition md_t140 : ty := (Ty ["xcm"%string; "v2"%string; "multiasset"%string; "AssetId"%string] [] (TVariant [(Variant "Concrete"%string [(Field None 126%N (Some "MultiLocation"%string) [])] 0%N []); (Variant "Abstract"%string [(Field None 13%N (Some "Vec<u8>"%string) [])] 1%N [])]) []).
Definition md_t141 : ty := (Ty ["xcm"%string; "v2"%string; "multiasset"%string; "Fungibility"%string] [] (TVariant [(Variant "Fungible"%string [(Field None 83%N (Some "u128"%string) [])] 0%N []); (Variant "NonFungible"%string [(Field None 142%N (Some "AssetInstance"%string) [])] 1%N [])]) []).
Definition md_t142 : ty := (Ty ["xcm"%string; "v2"%string; "multiasset"%string; "AssetInstance"%string] [] (TVariant [(Variant "Undefined"%string [] 0%N []); (Variant "Index"%string [(Field None 83%N (Some "u128"%string) [])] 1%N []); (Variant "Array4"%string [(Field None 17%N (Some "[u8; 4]"%string) [])] 2%N []); (Variant "Array8"%string [(Field None 143%N (Some "[u8; 8]"%string) [])] 3%N []); (Variant "Array16"%string [(Field None 144%N (Some "[u8; 16]"%string) [])] 4%N []); (Variant "Array32"%string [(Field None 1%N (Some "[u8; 32]"%string) [])] 5%N []); (Variant "Blob"%string [(Field None 13%N (Some "Vec<u8>"%string) [])] 6%N [])]) []).
Definition md_t143 : ty := (Ty [] [] (TArray 8%N 2%N) []).
Definition md_t144 : ty := (Ty [] [] (TArray 16%N 2%N) []).
Definition md_t145 : ty := (Ty ["xcm"%string; "v2"%string; "Response"%string] [] (TVariant [(Variant "Null"%string [] 0%N []); (Variant "Assets"%string [(Field None 137%N (Some "MultiAssets"%string) [])] 1%N []); (Variant "ExecutionResult"%string [(Field None 146%N (Some "Option<(u32, Error)>"%string) [])] 2%N []); (Variant "Version"%string [(Field None 4%N (Some "super::Version"%string) [])] 3%N [])]) []).
Definition md_t146 : ty := (Ty ["Option"%string] [("T"%string,(Some 147%N))] (TVariant [(Variant "None"%string [] 0%N []); (Variant "Some"%string [(Field None 147%N None [])] 1%N [])]) []).
Definition md_t147 : ty := (Ty [] [] (TTuple [4%N; 148%N]) []).
Definition md_t148 : ty := (Ty ["xcm"%string; "v2"%string; "traits"%string; "Error"%string] [] (TVariant [(Variant "Overflow"%string [] 0%N []); (Variant "Unimplemented"%string [] 1%N []); (Variant "UntrustedReserveLocation"%string [] 2%N []); (Variant "UntrustedTeleportLocation"%string [] 3%N []); (Variant "MultiLocationFull"%string [] 4%N []); (Variant "MultiLocationNotInvertible"%string [] 5%N []); (Variant "BadOrigin"%string [] 6%N []); (Variant "InvalidLocation"%string [] 7%N []); (Variant "AssetNotFound"%string [] 8%N []); (Variant "FailedToTransactAsset"%string [] 9%N []); (Variant "NotWithdrawable"%string [] 10%N []); (Variant "LocationCannotHold"%string [] 11%N []); (Variant "ExceedsMaxMessageSize"%string [] 12%N []); (Variant "DestinationUnsupported"%string [] 13%N []); (Variant "Transport"%string [] 14%N []); (Variant "Unroutable"%string [] 15%N []); (Variant "UnknownClaim"%string [] 16%N []); (Variant "FailedToDecode"%string [] 17%N []); (Variant "MaxWeightInvalid"%string [] 18%N []); (Variant "NotHoldingFees"%string [] 19%N []); (Variant "TooExpensive"%string [] 20%N []); (Variant "Trap"%string [(Field None 11%N (Some "u64"%string) [])] 21%N []); (Variant "UnhandledXcmVersion"%string [] 22%N []); (Variant "WeightLimitReached"%string [(Field None 11%N (Some "Weight"%string) [])] 23%N []); (Variant "Barrier"%string [] 24%N []); (Variant "WeightNotComputable"%string [] 25%N [])]) []).
Definition md_t149 : ty := (Ty ["xcm"%string; "v2"%string; "OriginKind"%string] [] (TVariant [(Variant "Native"%string [] 0%N []); (Variant "SovereignAccount"%string [] 1%N []); (Variant "Superuser"%string [] 2%N []); (Variant "Xcm"%string [] 3%N [])]) []).
Definition md_t150 : ty := (Ty ["xcm"%string; "double_encoded"%string; "DoubleEncoded"%string] [("T"%string,None)] (TComposite [(Field (Some "encoded"%string) 13%N (Some "Vec<u8>"%string) [])]) []).
Definition md_t151 : ty := (Ty ["xcm"%string; "v2"%string; "multiasset"%string; "MultiAssetFilter"%string] [] (TVariant [(Variant "Definite"%string [(Field None 137%N (Some "MultiAssets"%string) [])] 0%N []); (Variant "Wild"%string [(Field None 152%N (Some "WildMultiAsset"%string) [])] 1%N [])]) []).
Definition md_t152 : ty := (Ty ["xcm"%string; "v2"%string; "multiasset"%string; "WildMultiAsset"%string] [] (TVariant [(Variant "All"%string [] 0%N []); (Variant "AllOf"%string [(Field (Some "id"%string) 140%N (Some "AssetId"%string) []); (Field (Some "fun"%string) 153%N (Some "WildFungibility"%string) [])] 1%N [])]) []).
Definition md_t153 : ty := (Ty ["xcm"%string; "v2"%string; "multiasset"%string; "WildFungibility"%string] [] (TVariant [(Variant "Fungible"%string [] 0%N []); (Variant "NonFungible"%string [] 1%N [])]) []).
Definition md_t154 : ty := (Ty ["xcm"%string; "v2"%string; "WeightLimit"%string] [] (TVariant [(Variant "Unlimited"%string [] 0%N []); (Variant "Limited"%string [(Field None 10%N (Some "u64"%string) [])] 1%N [])]) []).
Definition md_t155 : ty := (Ty ["xcm"%string; "v3"%string; "Xcm"%string] [("Call"%string,None)] (TComposite [(Field None 156%N (Some "Vec<Instruction<Call>>"%string) [])]) []).
Definition md_t156 : ty := (Ty [] [] (TSequence 157%N) []).
Definition md_t157 : ty := (Ty ["xcm"%string; "v3"%string; "Instruction"%string] [("Call"%string,None)] (TVariant [(Variant "WithdrawAsset"%string [(Field None 158%N (Some "MultiAssets"%string) [])] 0%N []); (Variant "ReserveAssetDeposited"%string [(Field None 158%N (Some "MultiAssets"%string) [])] 1%N []); (Variant "ReceiveTeleportedAsset"%string [(Field None 158%N (Some "MultiAssets"%string) [])] 2%N []); (Variant "QueryResponse"%string [(Field (Some "query_id"%string) 10%N (Some "QueryId"%string) []); (Field (Some "response"%string) 164%N (Some "Response"%string) []); (Field (Some "max_weight"%string) 9%N (Some "Weight"%string) []); (Field (Some "querier"%string) 174%N (Some "Option<MultiLocation>"%string) [])] 3%N []); (Variant "TransferAsset"%string [(Field (Some "assets"%string) 158%N (Some "MultiAssets"%string) []); (Field (Some "beneficiary"%string) 112%N (Some "MultiLocation"%string) [])] 4%N []); (Variant "TransferReserveAsset"%string [(Field (Some "assets"%string) 158%N (Some "MultiAssets"%string) []); (Field (Some "dest"%string) 112%N (Some "MultiLocation"%string) []); (Field (Some "xcm"%string) 155%N (Some "Xcm<()>"%string) [])] 5%N []); (Variant "Transact"%string [(Field (Some "origin_kind"%string) 149%N (Some "OriginKind"%string) []); (Field (Some "require_weight_at_most"%string) 9%N (Some "Weight"%string) []); (Field (Some "call"%string) 150%N (Some "DoubleEncoded<Call>"%string) [])] 6%N []); (Variant "HrmpNewChannelOpenRequest"%string [(Field (Some "sender"%string) 66%N (Some "u32"%string) []); (Field (Some "max_message_size"%string) 66%N (Some "u32"%string) []); (Field (Some "max_capacity"%string) 66%N (Some "u32"%string) [])] 7%N []); (Variant "HrmpChannelAccepted"%string [(Field (Some "recipient"%string) 66%N (Some "u32"%string) [])] 8%N []); (Variant "HrmpChannelClosing"%string [(Field (Some "initiator"%string) 66%N (Some "u32"%string) []); (Field (Some "sender"%string) 66%N (Some "u32"%string) []); (Field (Some "recipient"%string) 66%N (Some "u32"%string) [])] 9%N []); (Variant "ClearOrigin"%string [] 10%N []); (Variant "DescendOrigin"%string [(Field None 113%N (Some "InteriorMultiLocation"%string) [])] 11%N []); (Variant "ReportError"%string [(Field None 175%N (Some "QueryResponseInfo"%string) [])] 12%N []); (Variant "DepositAsset"%string [(Field (Some "assets"%string) 176%N (Some "MultiAssetFilter"%string) []); (Field (Some "beneficiary"%string) 112%N (Some "MultiLocation"%string) [])] 13%N []); (Variant "DepositReserveAsset"%string [(Field (Some "assets"%string) 176%N (Some "MultiAssetFilter"%string) []); (Field (Some "dest"%string) 112%N (Some "MultiLocation"%string) []); (Field (Some "xcm"%string) 155%N (Some "Xcm<()>"%string) [])] 14%N []); (Variant "ExchangeAsset"%string [(Field (Some "give"%string) 176%N (Some "MultiAssetFilter"%string) []); (Field (Some "want"%string) 158%N (Some "MultiAssets"%string) []); (Field (Some "maximal"%string) 45%N (Some "bool"%string) [])] 15%N []); (Variant "InitiateReserveWithdraw"%string [(Field (Some "assets"%string) 176%N (Some "MultiAssetFilter"%string) []); (Field (Some "reserve"%string) 112%N (Some "MultiLocation"%string) []); (Field (Some "xcm"%string) 155%N (Some "Xcm<()>"%string) [])] 16%N []); (Variant "InitiateTeleport"%string [(Field (Some "assets"%string) 176%N (Some "MultiAssetFilter"%string) []); (Field (Some "dest"%string) 112%N (Some "MultiLocation"%string) []); (Field (Some "xcm"%string) 155%N (Some "Xcm<()>"%string) [])] 17%N []); (Variant "ReportHolding"%string [(Field (Some "response_info"%string) 175%N (Some "QueryResponseInfo"%string) []); (Field (Some "assets"%string) 176%N (Some "MultiAssetFilter"%string) [])] 18%N []); (Variant "BuyExecution"%string [(Field (Some "fees"%string) 160%N (Some "MultiAsset"%string) []); (Field (Some "weight_limit"%string) 179%N (Some "WeightLimit"%string) [])] 19%N []); (Variant "RefundSurplus"%string [] 20%N []); (Variant "SetErrorHandler"%string [(Field None 155%N (Some "Xcm<Call>"%string) [])] 21%N []); (Variant "SetAppendix"%string [(Field None 155%N (Some "Xcm<Call>"%string) [])] 22%N []); (Variant "ClearError"%string [] 23%N []); (Variant "ClaimAsset"%string [(Field (Some "assets"%string) 158%N (Some "MultiAssets"%string) []); (Field (Some "ticket"%string) 112%N (Some "MultiLocation"%string) [])] 24%N []); (Variant "Trap"%string [(Field None 10%N (Some "u64"%string) [])] 25%N []); (Variant "SubscribeVersion"%string [(Field (Some "query_id"%string) 10%N (Some "QueryId"%string) []); (Field (Some "max_response_weight"%string) 9%N (Some "Weight"%string) [])] 26%N []); (Variant "UnsubscribeVersion"%string [] 27%N []); (Variant "BurnAsset"%string [(Field None 158%N (Some "MultiAssets"%string) [])] 28%N []); (Variant "ExpectAsset"%string [(Field None 158%N (Some "MultiAssets"%string) [])] 29%N []); (Variant "ExpectOrigin"%string [(Field None 174%N (Some "Option<MultiLocation>"%string) [])] 30%N []); (Variant "ExpectError"%string [(Field None 165%N (Some "Option<(u32, Error)>"%string) [])] 31%N []); (Variant "ExpectTransactStatus"%string [(Field None 172%N (Some "MaybeErrorCode"%string) [])] 32%N []); (Variant "QueryPallet"%string [(Field (Some "module_name"%string) 13%N (Some "Vec<u8>"%string) []); (Field (Some "response_info"%string) 175%N (Some "QueryResponseInfo"%string) [])] 33%N []); (Variant "ExpectPallet"%string [(Field (Some "index"%string) 66%N (Some "u32"%string) []); (Field (Some "name"%string) 13%N (Some "Vec<u8>"%string) []); (Field (Some "module_name"%string) 13%N (Some "Vec<u8>"%string) []); (Field (Some "crate_major"%string) 66%N (Some "u32"%string) []); (Field (Some "min_crate_minor"%string) 66%N (Some "u32"%string) [])] 34%N []); (Variant "ReportTransactStatus"%string [(Field None 175%N (Some "QueryResponseInfo"%string) [])] 35%N []); (Variant "ClearTransactStatus"%string [] 36%N []); (Variant "UniversalOrigin"%string [(Field None 114%N (Some "Junction"%string) [])] 37%N []); (Variant "ExportMessage"%string [(Field (Some "network"%string) 116%N (Some "NetworkId"%string) []); (Field (Some "destination"%string) 113%N (Some "InteriorMultiLocation"%string) []); (Field (Some "xcm"%string) 155%N (Some "Xcm<()>"%string) [])] 38%N []); (Variant "LockAsset"%string [(Field (Some "asset"%string) 160%N (Some "MultiAsset"%string) []); (Field (Some "unlocker"%string) 112%N (Some "MultiLocation"%string) [])] 39%N []); (Variant "UnlockAsset"%string [(Field (Some "asset"%string) 160%N (Some "MultiAsset"%string) []); (Field (Some "target"%string) 112%N (Some "MultiLocation"%string) [])] 40%N []); (Variant "NoteUnlockable"%string [(Field (Some "asset"%string) 160%N (Some "MultiAsset"%string) []); (Field (Some "owner"%string) 112%N (Some "MultiLocation"%string) [])] 41%N []); (Variant "RequestUnlock"%string [(Field (Some "asset"%string) 160%N (Some "MultiAsset"%string) []); (Field (Some "locker"%string) 112%N (Some "MultiLocation"%string) [])] 42%N []); (Variant "SetFeesMode"%string [(Field (Some "jit_withdraw"%string) 45%N (Some "bool"%string) [])] 43%N []); (Variant "SetTopic"%string [(Field None 1%N (Some "[u8; 32]"%string) [])] 44%N []); (Variant "ClearTopic"%string [] 45%N []); (Variant "AliasOrigin"%string [(Field None 112%N (Some "MultiLocation"%string) [])] 46%N []); (Variant "UnpaidExecution"%string [(Field (Some "weight_limit"%string) 179%N (Some "WeightLimit"%string) []); (Field (Some "check_origin"%string) 174%N (Some "Option<MultiLocation>"%string) [])] 47%N [])]) []).
Definition md_t158 : ty := (Ty ["xcm"%string; "v3"%string; "multiasset"%string; "MultiAssets"%string] [] (TComposite [(Field None 159%N (Some "Vec<MultiAsset>"%string) [])]) []).
Definition md_t159 : ty := (Ty [] [] (TSequence 160%N) []).
Definition md_t160 : ty := (Ty ["xcm"%string; "v3"%string; "multiasset"%string; "MultiAsset"%string] [] (TComposite [(Field (Some "id"%string) 161%N (Some "AssetId"%string) []); (Field (Some "fun"%string) 162%N (Some "Fungibility"%string) [])]) []).
Definition md_t161 : ty := (Ty ["xcm"%string; "v3"%string; "multiasset"%string; "AssetId"%string] [] (TVariant [(Variant "Concrete"%string [(Field None 112%N (Some "MultiLocation"%string) [])] 0%N []); (Variant "Abstract"%string [(Field None 1%N (Some "[u8; 32]"%string) [])] 1%N [])]) []).
Definition md_t162 : ty := (Ty ["xcm"%string; "v3"%string; "multiasset"%string; "Fungibility"%string] [] (TVariant [(Variant "Fungible"%string [(Field None 83%N (Some "u128"%string) [])] 0%N []); (Variant "NonFungible"%string [(Field None 163%N (Some "AssetInstance"%string) [])] 1%N [])]) []).
Definition md_t163 : ty := (Ty ["xcm"%string; "v3"%string; "multiasset"%string; "AssetInstance"%string] [] (TVariant [(Variant "Undefined"%string [] 0%N []); (Variant "Index"%string [(Field None 83%N (Some "u128"%string) [])] 1%N []); (Variant "Array4"%string [(Field None 17%N (Some "[u8; 4]"%string) [])] 2%N []); (Variant "Array8"%string [(Field None 143%N (Some "[u8; 8]"%string) [])] 3%N []); (Variant "Array16"%string [(Field None 144%N (Some "[u8; 16]"%string) [])] 4%N []); (Variant "Array32"%string [(Field None 1%N (Some "[u8; 32]"%string) [])] 5%N [])]) []).
Definition md_t164 : ty := (Ty ["xcm"%string; "v3"%string; "Response"%string] [] (TVariant [(Variant "Null"%string [] 0%N []); (Variant "Assets"%string [(Field None 158%N (Some "MultiAssets"%string) [])] 1%N []); (Variant "ExecutionResult"%string [(Field None 165%N (Some "Option<(u32, Error)>"%string) [])] 2%N []); (Variant "Version"%string [(Field None 4%N (Some "super::Version"%string) [])] 3%N []); (Variant "PalletsInfo"%string [(Field None 168%N (Some "BoundedVec<PalletInfo, MaxPalletsInfo>"%string) [])] 4%N []); (Variant "DispatchResult"%string [(Field None 172%N (Some "MaybeErrorCode"%string) [])] 5%N [])]) []).
Definition md_t165 : ty := (Ty ["Option"%string] [("T"%string,(Some 166%N))] (TVariant [(Variant "None"%string [] 0%N []); (Variant "Some"%string [(Field None 166%N None [])] 1%N [])]) []).
Definition md_t166 : ty := (Ty [] [] (TTuple [4%N; 167%N]) []).
Definition md_t167 : ty := (Ty ["xcm"%string; "v3"%string; "traits"%string; "Error"%string] [] (TVariant [(Variant "Overflow"%string [] 0%N []); (Variant "Unimplemented"%string [] 1%N []); (Variant "UntrustedReserveLocation"%string [] 2%N []); (Variant "UntrustedTeleportLocation"%string [] 3%N []); (Variant "LocationFull"%string [] 4%N []); (Variant "LocationNotInvertible"%string [] 5%N []); (Variant "BadOrigin"%string [] 6%N []); (Variant "InvalidLocation"%string [] 7%N []); (Variant "AssetNotFound"%string [] 8%N []); (Variant "FailedToTransactAsset"%string [] 9%N []); (Variant "NotWithdrawable"%string [] 10%N []); (Variant "LocationCannotHold"%string [] 11%N []); (Variant "ExceedsMaxMessageSize"%string [] 12%N []); (Variant "DestinationUnsupported"%string [] 13%N []); (Variant "Transport"%string [] 14%N []); (Variant "Unroutable"%string [] 15%N []); (Variant "UnknownClaim"%string [] 16%N []); (Variant "FailedToDecode"%string [] 17%N []); (Variant "MaxWeightInvalid"%string [] 18%N []); (Variant "NotHoldingFees"%string [] 19%N []); (Variant "TooExpensive"%string [] 20%N []); (Variant "Trap"%string [(Field None 11%N (Some "u64"%string) [])] 21%N []); (Variant "ExpectationFalse"%string [] 22%N []); (Variant "PalletNotFound"%string [] 23%N []); (Variant "NameMismatch"%string [] 24%N []); (Variant "VersionIncompatible"%string [] 25%N []); (Variant "HoldingWouldOverflow"%string [] 26%N []); (Variant "ExportError"%string [] 27%N []); (Variant "ReanchorFailed"%string [] 28%N []); (Variant "NoDeal"%string [] 29%N []); (Variant "FeesNotMet"%string [] 30%N []); (Variant "LockError"%string [] 31%N []); (Variant "NoPermission"%string [] 32%N []); (Variant "Unanchored"%string [] 33%N []); (Variant "NotDepositable"%string [] 34%N []); (Variant "UnhandledXcmVersion"%string [] 35%N []); (Variant "WeightLimitReached"%string [(Field None 9%N (Some "Weight"%string) [])] 36%N []); (Variant "Barrier"%string [] 37%N []); (Variant "WeightNotComputable"%string [] 38%N []); (Variant "ExceedsStackLimit"%string [] 39%N [])]) []).
Definition md_t168 : ty := (Ty ["bounded_collections"%string; "bounded_vec"%string; "BoundedVec"%string] [("T"%string,(Some 169%N)); ("S"%string,None)] (TComposite [(Field None 171%N (Some "Vec<T>"%string) [])]) []).
Definition md_t169 : ty := (Ty ["xcm"%string; "v3"%string; "PalletInfo"%string] [] (TComposite [(Field (Some "index"%string) 66%N (Some "u32"%string) []); (Field (Some "name"%string) 170%N (Some "BoundedVec<u8, MaxPalletNameLen>"%string) []); (Field (Some "module_name"%string) 170%N (Some "BoundedVec<u8, MaxPalletNameLen>"%string) []); (Field (Some "major"%string) 66%N (Some "u32"%string) []); (Field (Some "minor"%string) 66%N (Some "u32"%string) []); (Field (Some "patch"%string) 66%N (Some "u32"%string) [])]) []).
Definition md_t170 : ty := (Ty ["bounded_collections"%string; "bounded_vec"%string; "BoundedVec"%string] [("T"%string,(Some 2%N)); ("S"%string,None)] (TComposite [(Field None 13%N (Some "Vec<T>"%string) [])]) []).
Definition md_t171 : ty := (Ty [] [] (TSequence 169%N) []).
Definition md_t172 : ty := (Ty ["xcm"%string; "v3"%string; "MaybeErrorCode"%string] [] (TVariant [(Variant "Success"%string [] 0%N []); (Variant "Error"%string [(Field None 173%N (Some "BoundedVec<u8, MaxDispatchErrorLen>"%string) [])] 1%N []); (Variant "TruncatedError"%string [(Field None 173%N (Some "BoundedVec<u8, MaxDispatchErrorLen>"%string) [])] 2%N [])]) []).
Definition md_t173 : ty := (Ty ["bounded_collections"%string; "bounded_vec"%string; "BoundedVec"%string] [("T"%string,(Some 2%N)); ("S"%string,None)] (TComposite [(Field None 13%N (Some "Vec<T>"%string) [])]) []).
Definition md_t174 : ty := (Ty ["Option"%string] [("T"%string,(Some 112%N))] (TVariant [(Variant "None"%string [] 0%N []); (Variant "Some"%string [(Field None 112%N None [])] 1%N [])]) []).
Definition md_t175 : ty := (Ty ["xcm"%string; "v3"%string; "QueryResponseInfo"%string] [] (TComposite [(Field (Some "destination"%string) 112%N (Some "MultiLocation"%string) []); (Field (Some "query_id"%string) 10%N (Some "QueryId"%string) []); (Field (Some "max_weight"%string) 9%N (Some "Weight"%string) [])]) []).
Definition md_t176 : ty := (Ty ["xcm"%string; "v3"%string; "multiasset"%string; "MultiAssetFilter"%string] [] (TVariant [(Variant "Definite"%string [(Field None 158%N (Some "MultiAssets"%string) [])] 0%N []); (Variant "Wild"%string [(Field None 177%N (Some "WildMultiAsset"%string) [])] 1%N [])]) []).
Definition md_t177 : ty := (Ty ["xcm"%string; "v3"%string; "multiasset"%string; "WildMultiAsset"%string] [] (TVariant [(Variant "All"%string [] 0%N []); (Variant "AllOf"%string [(Field (Some "id"%string) 161%N (Some "AssetId"%string) []); (Field (Some "fun"%string) 178%N (Some "WildFungibility"%string) [])] 1%N []); (Variant "AllCounted"%string [(Field None 66%N (Some "u32"%string) [])] 2%N []); (Variant "AllOfCounted"%string [(Field (Some "id"%string) 161%N (Some "AssetId"%string) []); (Field (Some "fun"%string) 178%N (Some "WildFungibility"%string) []); (Field (Some "count"%string) 66%N (Some "u32"%string) [])] 3%N [])]) []).
Definition md_t178 : ty := (Ty ["xcm"%string; "v3"%string; "multiasset"%string; "WildFungibility"%string] [] (TVariant [(Variant "Fungible"%string [] 0%N []); (Variant "NonFungible"%string [] 1%N [])]) []).
Definition md_t179 : ty := (Ty ["xcm"%string; "v3"%string; "WeightLimit"%string] [] (TVariant [(Variant "Unlimited"%string [] 0%N []); (Variant "Limited"%string [(Field None 9%N (Some "Weight"%string) [])] 1%N [])]) []).
Definition md_t180 : ty := (Ty ["xcm"%string; "VersionedMultiAssets"%string] [] (TVariant [(Variant "V2"%string [(Field None 137%N (Some "v2::MultiAssets"%string) [])] 1%N []); (Variant "V3"%string [(Field None 158%N (Some "v3::MultiAssets"%string) [])] 3%N [])]) []).
Definition md_t181 : ty := (Ty ["xcm"%string; "VersionedXcm"%string] [("RuntimeCall"%string,None)] (TVariant [(Variant "V2"%string [(Field None 182%N (Some "v2::Xcm<RuntimeCall>"%string) [])] 2%N []); (Variant "V3"%string [(Field None 186%N (Some "v3::Xcm<RuntimeCall>"%string) [])] 3%N [])]) []).
Definition md_t182 : ty := (Ty ["xcm"%string; "v2"%string; "Xcm"%string] [("RuntimeCall"%string,None)] (TComposite [(Field None 183%N (Some "Vec<Instruction<RuntimeCall>>"%string) [])]) []).
Definition md_t183 : ty := (Ty [] [] (TSequence 184%N) []).
Definition md_t184 : ty := (Ty ["xcm"%string; "v2"%string; "Instruction"%string] [("RuntimeCall"%string,None)] (TVariant [(Variant "WithdrawAsset"%string [(Field None 137%N (Some "MultiAssets"%string) [])] 0%N []); (Variant "ReserveAssetDeposited"%string [(Field None 137%N (Some "MultiAssets"%string) [])] 1%N []); (Variant "ReceiveTeleportedAsset"%string [(Field None 137%N (Some "MultiAssets"%string) [])] 2%N []); (Variant "QueryResponse"%string [(Field (Some "query_id"%string) 10%N (Some "QueryId"%string) []); (Field (Some "response"%string) 145%N (Some "Response"%string) []); (Field (Some "max_weight"%string) 10%N (Some "u64"%string) [])] 3%N []); (Variant "TransferAsset"%string [(Field (Some "assets"%string) 137%N (Some "MultiAssets"%string) []); (Field (Some "beneficiary"%string) 126%N (Some "MultiLocation"%string) [])] 4%N []); (Variant "TransferReserveAsset"%string [(Field (Some "assets"%string) 137%N (Some "MultiAssets"%string) []); (Field (Some "dest"%string) 126%N (Some "MultiLocation"%string) []); (Field (Some "xcm"%string) 134%N (Some "Xcm<()>"%string) [])] 5%N []); (Variant "Transact"%string [(Field (Some "origin_type"%string) 149%N (Some "OriginKind"%string) []); (Field (Some "require_weight_at_most"%string) 10%N (Some "u64"%string) []); (Field (Some "call"%string) 185%N (Some "DoubleEncoded<RuntimeCall>"%string) [])] 6%N []); (Variant "HrmpNewChannelOpenRequest"%string [(Field (Some "sender"%string) 66%N (Some "u32"%string) []); (Field (Some "max_message_size"%string) 66%N (Some "u32"%string) []); (Field (Some "max_capacity"%string) 66%N (Some "u32"%string) [])] 7%N []); (Variant "HrmpChannelAccepted"%string [(Field (Some "recipient"%string) 66%N (Some "u32"%string) [])] 8%N []); (Variant "HrmpChannelClosing"%string [(Field (Some "initiator"%string) 66%N (Some "u32"%string) []); (Field (Some "sender"%string) 66%N (Some "u32"%string) []); (Field (Some "recipient"%string) 66%N (Some "u32"%string) [])] 9%N []); (Variant "ClearOrigin"%string [] 10%N []); (Variant "DescendOrigin"%string [(Field None 127%N (Some "InteriorMultiLocation"%string) [])] 11%N []); (Variant "ReportError"%string [(Field (Some "query_id"%string) 10%N (Some "QueryId"%string) []); (Field (Some "dest"%string) 126%N (Some "MultiLocation"%string) []); (Field (Some "max_response_weight"%string) 10%N (Some "u64"%string) [])] 12%N []); (Variant "DepositAsset"%string [(Field (Some "assets"%string) 151%N (Some "MultiAssetFilter"%string) []); (Field (Some "max_assets"%string) 66%N (Some "u32"%string) []); (Field (Some "beneficiary"%string) 126%N (Some "MultiLocation"%string) [])] 13%N []); (Variant "DepositReserveAsset"%string [(Field (Some "assets"%string) 151%N (Some "MultiAssetFilter"%string) []); (Field (Some "max_assets"%string) 66%N (Some "u32"%string) []); (Field (Some "dest"%string) 126%N (Some "MultiLocation"%string) []); (Field (Some "xcm"%string) 134%N (Some "Xcm<()>"%string) [])] 14%N []); (Variant "ExchangeAsset"%string [(Field (Some "give"%string) 151%N (Some "MultiAssetFilter"%string) []); (Field (Some "receive"%string) 137%N (Some "MultiAssets"%string) [])] 15%N []); (Variant "InitiateReserveWithdraw"%string [(Field (Some "assets"%string) 151%N (Some "MultiAssetFilter"%string) []); (Field (Some "reserve"%string) 126%N (Some "MultiLocation"%string) []); (Field (Some "xcm"%string) 134%N (Some "Xcm<()>"%string) [])] 16%N []); (Variant "InitiateTeleport"%string [(Field (Some "assets"%string) 151%N (Some "MultiAssetFilter"%string) []); (Field (Some "dest"%string) 126%N (Some "MultiLocation"%string) []); (Field (Some "xcm"%string) 134%N (Some "Xcm<()>"%string) [])] 17%N []); (Variant "QueryHolding"%string [(Field (Some "query_id"%string) 10%N (Some "QueryId"%string) []); (Field (Some "dest"%string) 126%N (Some "MultiLocation"%string) []); (Field (Some "assets"%string) 151%N (Some "MultiAssetFilter"%string) []); (Field (Some "max_response_weight"%string) 10%N (Some "u64"%string) [])] 18%N []); (Variant "BuyExecution"%string [(Field (Some "fees"%string) 139%N (Some "MultiAsset"%string) []); (Field (Some "weight_limit"%string) 154%N (Some "WeightLimit"%string) [])] 19%N []); (Variant "RefundSurplus"%string [] 20%N []); (Variant "SetErrorHandler"%string [(Field None 182%N (Some "Xcm<RuntimeCall>"%string) [])] 21%N []); (Variant "SetAppendix"%string [(Field None 182%N (Some "Xcm<RuntimeCall>"%string) [])] 22%N []); (Variant "ClearError"%string [] 23%N []); (Variant "ClaimAsset"%string [(Field (Some "assets"%string) 137%N (Some "MultiAssets"%string) []); (Field (Some "ticket"%string) 126%N (Some "MultiLocation"%string) [])] 24%N []); (Variant "Trap"%string [(Field None 10%N (Some "u64"%string) [])] 25%N []); (Variant "SubscribeVersion"%string [(Field (Some "query_id"%string) 10%N (Some "QueryId"%string) []); (Field (Some "max_response_weight"%string) 10%N (Some "u64"%string) [])] 26%N []); (Variant "UnsubscribeVersion"%string [] 27%N [])]) []).
Definition md_t185 : ty := (Ty ["xcm"%string; "double_encoded"%string; "DoubleEncoded"%string] [("T"%string,None)] (TComposite [(Field (Some "encoded"%string) 13%N (Some "Vec<u8>"%string) [])]) []).
Definition md_t186 : ty := (Ty ["xcm"%string; "v3"%string; "Xcm"%string] [("Call"%string,None)] (TComposite [(Field None 187%N (Some "Vec<Instruction<Call>>"%string) [])]) []).
Definition md_t187 : ty := (Ty [] [] (TSequence 188%N) []).
Definition md_t188 : ty := (Ty ["xcm"%string; "v3"%string; "Instruction"%string] [("Call"%string,None)] (TVariant [(Variant "WithdrawAsset"%string [(Field None 158%N (Some "MultiAssets"%string) [])] 0%N []); (Variant "ReserveAssetDeposited"%string [(Field None 158%N (Some "MultiAssets"%string) [])] 1%N []); (Variant "ReceiveTeleportedAsset"%string [(Field None 158%N (Some "MultiAssets"%string) [])] 2%N []); (Variant "QueryResponse"%string [(Field (Some "query_id"%string) 10%N (Some "QueryId"%string) []); (Field (Some "response"%string) 164%N (Some "Response"%string) []); (Field (Some "max_weight"%string) 9%N (Some "Weight"%string) []); (Field (Some "querier"%string) 174%N (Some "Option<MultiLocation>"%string) [])] 3%N []); (Variant "TransferAsset"%string [(Field (Some "assets"%string) 158%N (Some "MultiAssets"%string) []); (Field (Some "beneficiary"%string) 112%N (Some "MultiLocation"%string) [])] 4%N []); (Variant "TransferReserveAsset"%string [(Field (Some "assets"%string) 158%N (Some "MultiAssets"%string) []); (Field (Some "dest"%string) 112%N (Some "MultiLocation"%string) []); (Field (Some "xcm"%string) 155%N (Some "Xcm<()>"%string) [])] 5%N []); (Variant "Transact"%string [(Field (Some "origin_kind"%string) 149%N (Some "OriginKind"%string) []); (Field (Some "require_weight_at_most"%string) 9%N (Some "Weight"%string) []); (Field (Some "call"%string) 185%N (Some "DoubleEncoded<Call>"%string) [])] 6%N []); (Variant "HrmpNewChannelOpenRequest"%string [(Field (Some "sender"%string) 66%N (Some "u32"%string) []); (Field (Some "max_message_size"%string) 66%N (Some "u32"%string) []); (Field (Some "max_capacity"%string) 66%N (Some "u32"%string) [])] 7%N []); (Variant "HrmpChannelAccepted"%string [(Field (Some "recipient"%string) 66%N (Some "u32"%string) [])] 8%N []); (Variant "HrmpChannelClosing"%string [(Field (Some "initiator"%string) 66%N (Some "u32"%string) []); (Field (Some "sender"%string) 66%N (Some "u32"%string) []); (Field (Some "recipient"%string) 66%N (Some "u32"%string) [])] 9%N []); (Variant "ClearOrigin"%string [] 10%N []); (Variant "DescendOrigin"%string [(Field None 113%N (Some "InteriorMultiLocation"%string) [])] 11%N []); (Variant "ReportError"%string [(Field None 175%N (Some "QueryResponseInfo"%string) [])] 12%N []); (Variant "DepositAsset"%string [(Field (Some "assets"%string) 176%N (Some "MultiAssetFilter"%string) []); (Field (Some "beneficiary"%string) 112%N (Some "MultiLocation"%string) [])] 13%N []); (Variant "DepositReserveAsset"%string [(Field (Some "assets"%string) 176%N (Some "MultiAssetFilter"%string) []); (Field (Some "dest"%string) 112%N (Some "MultiLocation"%string) []); (Field (Some "xcm"%string) 155%N (Some "Xcm<()>"%string) [])] 14%N []); (Variant "ExchangeAsset"%string [(Field (Some "give"%string) 176%N (Some "MultiAssetFilter"%string) []); (Field (Some "want"%string) 158%N (Some "MultiAssets"%string) []); (Field (Some "maximal"%string) 45%N (Some "bool"%string) [])] 15%N []); (Variant "InitiateReserveWithdraw"%string [(Field (Some "assets"%string) 176%N (Some "MultiAssetFilter"%string) []); (Field (Some "reserve"%string) 112%N (Some "MultiLocation"%string) []); (Field (Some "xcm"%string) 155%N (Some "Xcm<()>"%string) [])] 16%N []); (Variant "InitiateTeleport"%string [(Field (Some "assets"%string) 176%N (Some "MultiAssetFilter"%string) []); (Field (Some "dest"%string) 112%N (Some "MultiLocation"%string) []); (Field (Some "xcm"%string) 155%N (Some "Xcm<()>"%string) [])] 17%N []); (Variant "ReportHolding"%string [(Field (Some "response_info"%string) 175%N (Some "QueryResponseInfo"%string) []); (Field (Some "assets"%string) 176%N (Some "MultiAssetFilter"%string) [])] 18%N []); (Variant "BuyExecution"%string [(Field (Some "fees"%string) 160%N (Some "MultiAsset"%string) []); (Field (Some "weight_limit"%string) 179%N (Some "WeightLimit"%string) [])] 19%N []); (Variant "RefundSurplus"%string [] 20%N []); (Variant "SetErrorHandler"%string [(Field None 186%N (Some "Xcm<Call>"%string) [])] 21%N []); (Variant "SetAppendix"%string [(Field None 186%N (Some "Xcm<Call>"%string) [])] 22%N []); (Variant "ClearError"%string [] 23%N []); (Variant "ClaimAsset"%string [(Field (Some "assets"%string) 158%N (Some "MultiAssets"%string) []); (Field (Some "ticket"%string) 112%N (Some "MultiLocation"%string) [])] 24%N []); (Variant "Trap"%string [(Field None 10%N (Some "u64"%string) [])] 25%N []); (Variant "SubscribeVersion"%string [(Field (Some "query_id"%string) 10%N (Some "QueryId"%string) []); (Field (Some "max_response_weight"%string) 9%N (Some "Weight"%string) [])] 26%N []); (Variant "UnsubscribeVersion"%string [] 27%N []); (Variant "BurnAsset"%string [(Field None 158%N (Some "MultiAssets"%string) [])] 28%N []); (Variant "ExpectAsset"%string [(Field None 158%N (Some "MultiAssets"%string) [])] 29%N []); (Variant "ExpectOrigin"%string [(Field None 174%N (Some "Option<MultiLocation>"%string) [])] 30%N []); (Variant "ExpectError"%string [(Field None 165%N (Some "Option<(u32, Error)>"%string) [])] 31%N []); (Variant "ExpectTransactStatus"%string [(Field None 172%N (Some "MaybeErrorCode"%string) [])] 32%N []); (Variant "QueryPallet"%string [(Field (Some "module_name"%string) 13%N (Some "Vec<u8>"%string) []); (Field (Some "response_info"%string) 175%N (Some "QueryResponseInfo"%string) [])] 33%N []); (Variant "ExpectPallet"%string [(Field (Some "index"%string) 66%N (Some "u32"%string) []); (Field (Some "name"%string) 13%N (Some "Vec<u8>"%string) []); (Field (Some "module_name"%string) 13%N (Some "Vec<u8>"%string) []); (Field (Some "crate_major"%string) 66%N (Some "u32"%string) []); (Field (Some "min_crate_minor"%string) 66%N (Some "u32"%string) [])] 34%N []); (Variant "ReportTransactStatus"%string [(Field None 175%N (Some "QueryResponseInfo"%string) [])] 35%N []); (Variant "ClearTransactStatus"%string [] 36%N []); (Variant "UniversalOrigin"%string [(Field None 114%N (Some "Junction"%string) [])] 37%N []); (Variant "ExportMessage"%string [(Field (Some "network"%string) 116%N (Some "NetworkId"%string) []); (Field (Some "destination"%string) 113%N (Some "InteriorMultiLocation"%string) []); (Field (Some "xcm"%string) 155%N (Some "Xcm<()>"%string) [])] 38%N []); (Variant "LockAsset"%string [(Field (Some "asset"%string) 160%N (Some "MultiAsset"%string) []); (Field (Some "unlocker"%string) 112%N (Some "MultiLocation"%string) [])] 39%N []); (Variant "UnlockAsset"%string [(Field (Some "asset"%string) 160%N (Some "MultiAsset"%string) []); (Field (Some "target"%string) 112%N (Some "MultiLocation"%string) [])] 40%N []); (Variant "NoteUnlockable"%string [(Field (Some "asset"%string) 160%N (Some "MultiAsset"%string) []); (Field (Some "owner"%string) 112%N (Some "MultiLocation"%string) [])] 41%N []); (Variant "RequestUnlock"%string [(Field (Some "asset"%string) 160%N (Some "MultiAsset"%string) []); (Field (Some "locker"%string) 112%N (Some "MultiLocation"%string) [])] 42%N []); (Variant "SetFeesMode"%string [(Field (Some "jit_withdraw"%string) 45%N (Some "bool"%string) [])] 43%N []); (Variant "SetTopic"%string [(Field None 1%N (Some "[u8; 32]"%string) [])] 44%N []); (Variant "ClearTopic"%string [] 45%N []); (Variant "AliasOrigin"%string [(Field None 112%N (Some "MultiLocation"%string) [])] 46%N []); (Variant "UnpaidExecution"%string [(Field (Some "weight_limit"%string) 179%N (Some "WeightLimit"%string) []); (Field (Some "check_origin"%string) 174%N (Some "Option<MultiLocation>"%string) [])] 47%N [])]) []).
Definition md_t189 : ty := (Ty ["cumulus_pallet_dmp_queue"%string; "pallet"%string; "Call"%string] [("T"%string,None)] (TVariant [(Variant "service_overweight"%string [(Field (Some "index"%string) 11%N (Some "OverweightIndex"%string) []); (Field (Some "weight_limit"%string) 9%N (Some "Weight"%string) [])] 0%N ["Service a single overweight message."%string])]) ["Contains one variant per dispatchable that can be called by an extrinsic."%string]).
Definition md_t190 : ty := (Ty ["pallet_utility"%string; "pallet"%string; "Call"%string] [("T"%string,None)] (TVariant [(Variant "batch"%string [(Field (Some "calls"%string) 191%N (Some "Vec<<T as Config>::RuntimeCall>"%string) [])] 0%N ["Send a batch of dispatch calls."%string; ""%string; "May be called from any origin except `None`."%string; ""%string; "- `calls`: The calls to be dispatched from the same origin. The number of call must not"%string; "  exceed the constant: `batched_calls_limit` (available in constant metadata)."%string; ""%string; "If origin is root then the calls are dispatched without checking origin filter. (This"%string; "includes bypassing `frame_system::Config::BaseCallFilter`)."%string; ""%string; "## Complexity"%string; "- O(C) where C is the number of calls to be batched."%string; ""%string; "This will return `Ok` in all circumstances. To determine the success of the batch, an"%string; "event is deposited. If a call failed and the batch was interrupted, then the"%string; "`BatchInterrupted` event is deposited, along with the number of successful calls made"%string; "and the error of the failed call. If all were successful, then the `BatchCompleted`"%string; "event is deposited."%string]); (Variant "as_derivative"%string [(Field (Some "index"%string) 56%N (Some "u16"%string) []); (Field (Some "call"%string) 58%N (Some "Box<<T as Config>::RuntimeCall>"%string) [])] 1%N ["Send a call through an indexed pseudonym of the sender."%string; ""%string; "Filter from origin are passed along. The call will be dispatched with an origin which"%string; "use the same filter as the origin of this call."%string; ""%string; "NOTE: If you need to ensure that any account-based filtering is not honored (i.e."%string; "because you expect `proxy` to have been used prior in the call stack and you do not want"%string; "the call restrictions to apply to any sub-accounts), then use `as_multi_threshold_1`"%string; "in the Multisig pallet instead."%string; ""%string; "NOTE: Prior to version *12, this was called `as_limited_sub`."%string; ""%string; "The dispatch origin for this call must be _Signed_."%string]); (Variant "batch_all"%string [(Field (Some "calls"%string) 191%N (Some "Vec<<T as Config>::RuntimeCall>"%string) [])] 2%N ["Send a batch of dispatch calls and atomically execute them."%string; "The whole transaction will rollback and fail if any of the calls failed."%string; ""%string; "May be called from any origin except `None`."%string; ""%string; "- `calls`: The calls to be dispatched from the same origin. The number of call must not"%string; "  exceed the constant: `batched_calls_limit` (available in constant metadata)."%string; ""%string; "If origin is root then the calls are dispatched without checking origin filter. (This"%string; "includes bypassing `frame_system::Config::BaseCallFilter`)."%string; ""%string; "## Complexity"%string; "- O(C) where C is the number of calls to be batched."%string]); (Variant "dispatch_as"%string [(Field (Some "as_origin"%string) 106%N (Some "Box<T::PalletsOrigin>"%string) []); (Field (Some "call"%string) 58%N (Some "Box<<T as Config>::RuntimeCall>"%string) [])] 3%N ["Dispatches a function call with a provided origin."%string; ""%string; "The dispatch origin for this call must be _Root_."%string; ""%string; "## Complexity"%string; "- O(1)."%string]); (Variant "force_batch"%string [(Field (Some "calls"%string) 191%N (Some "Vec<<T as Config>::RuntimeCall>"%string) [])] 4%N ["Send a batch of dispatch calls."%string; "Unlike `batch`, it allows errors and won't interrupt."%string; ""%string; "May be called from any origin except `None`."%string; ""%string; "- `calls`: The calls to be dispatched from the same origin. The number of call must not"%string; "  exceed the constant: `batched_calls_limit` (available in constant metadata)."%string; ""%string; "If origin is root then the calls are dispatch without checking origin filter. (This"%string; "includes bypassing `frame_system::Config::BaseCallFilter`)."%string; ""%string; "## Complexity"%string; "- O(C) where C is the number of calls to be batched."%string]); (Variant "with_weight"%string [(Field (Some "call"%string) 58%N (Some "Box<<T as Config>::RuntimeCall>"%string) []); (Field (Some "weight"%string) 9%N (Some "Weight"%string) [])] 5%N ["Dispatch a function call with a specified weight."%string; ""%string; "This function does not check the weight of the call, and instead allows the"%string; "Root origin to specify the weight of the call."%string; ""%string; "The dispatch origin for this call must be _Root_."%string])]) ["Contains one variant per dispatchable that can be called by an extrinsic."%string]).
Definition md_t191 : ty := (Ty [] [] (TSequence 58%N) []).
Definition md_t192 : ty := (Ty ["pallet_scheduler"%string; "pallet"%string; "Call"%string] [("T"%string,None)] (TVariant [(Variant "schedule"%string [(Field (Some "when"%string) 4%N (Some "T::BlockNumber"%string) []); (Field (Some "maybe_periodic"%string) 193%N (Some "Option<schedule::Period<T::BlockNumber>>"%string) []); (Field (Some "priority"%string) 2%N (Some "schedule::Priority"%string) []); (Field (Some "call"%string) 58%N (Some "Box<<T as Config>::RuntimeCall>"%string) [])] 0%N ["Anonymously schedule a task."%string]); (Variant "cancel"%string [(Field (Some "when"%string) 4%N (Some "T::BlockNumber"%string) []); (Field (Some "index"%string) 4%N (Some "u32"%string) [])] 1%N ["Cancel an anonymously scheduled task."%string]); (Variant "schedule_named"%string [(Field (Some "id"%string) 1%N (Some "TaskName"%string) []); (Field (Some "when"%string) 4%N (Some "T::BlockNumber"%string) []); (Field (Some "maybe_periodic"%string) 193%N (Some "Option<schedule::Period<T::BlockNumber>>"%string) []); (Field (Some "priority"%string) 2%N (Some "schedule::Priority"%string) []); (Field (Some "call"%string) 58%N (Some "Box<<T as Config>::RuntimeCall>"%string) [])] 2%N ["Schedule a named task."%string]); (Variant "cancel_named"%string [(Field (Some "id"%string) 1%N (Some "TaskName"%string) [])] 3%N ["Cancel a named scheduled task."%string]); (Variant "schedule_after"%string [(Field (Some "after"%string) 4%N (Some "T::BlockNumber"%string) []); (Field (Some "maybe_periodic"%string) 193%N (Some "Option<schedule::Period<T::BlockNumber>>"%string) []); (Field (Some "priority"%string) 2%N (Some "schedule::Priority"%string) []); (Field (Some "call"%string) 58%N (Some "Box<<T as Config>::RuntimeCall>"%string) [])] 4%N ["Anonymously schedule a task after a delay."%string]); (Variant "schedule_named_after"%string [(Field (Some "id"%string) 1%N (Some "TaskName"%string) []); (Field (Some "after"%string) 4%N (Some "T::BlockNumber"%string) []); (Field (Some "maybe_periodic"%string) 193%N (Some "Option<schedule::Period<T::BlockNumber>>"%string) []); (Field (Some "priority"%string) 2%N (Some "schedule::Priority"%string) []); (Field (Some "call"%string) 58%N (Some "Box<<T as Config>::RuntimeCall>"%string) [])] 5%N ["Schedule a named task after a delay."%string])]) ["Contains one variant per dispatchable that can be called by an extrinsic."%string]).
Definition md_t193 : ty := (Ty ["Option"%string] [("T"%string,(Some 194%N))] (TVariant [(Variant "None"%string [] 0%N []); (Variant "Some"%string [(Field None 194%N None [])] 1%N [])]) []).
Definition md_t194 : ty := (Ty [] [] (TTuple [4%N; 4%N]) []).
Definition md_t195 : ty := (Ty ["pallet_proxy"%string; "pallet"%string; "Call"%string] [("T"%string,None)] (TVariant [(Variant "proxy"%string [(Field (Some "real"%string) 65%N (Some "AccountIdLookupOf<T>"%string) []); (Field (Some "force_proxy_type"%string) 196%N (Some "Option<T::ProxyType>"%string) []); (Field (Some "call"%string) 58%N (Some "Box<<T as Config>::RuntimeCall>"%string) [])] 0%N ["Dispatch the given `call` from an account that the sender is authorised for through"%string; "`add_proxy`."%string; ""%string; "The dispatch origin for this call must be _Signed_."%string; ""%string; "Parameters:"%string; "- `real`: The account that the proxy will make a call on behalf of."%string; "- `force_proxy_type`: Specify the exact proxy type to be used and checked for this call."%string; "- `call`: The call to be made by the `real` account."%string]); (Variant "add_proxy"%string [(Field (Some "delegate"%string) 65%N (Some "AccountIdLookupOf<T>"%string) []); (Field (Some "proxy_type"%string) 197%N (Some "T::ProxyType"%string) []); (Field (Some "delay"%string) 4%N (Some "T::BlockNumber"%string) [])] 1%N ["Register a proxy account for the sender that is able to make calls on its behalf."%string; ""%string; "The dispatch origin for this call must be _Signed_."%string; ""%string; "Parameters:"%string; "- `proxy`: The account that the `caller` would like to make a proxy."%string; "- `proxy_type`: The permissions allowed for this proxy account."%string; "- `delay`: The announcement period required of the initial proxy. Will generally be"%string; "zero."%string]); (Variant "remove_proxy"%string [(Field (Some "delegate"%string) 65%N (Some "AccountIdLookupOf<T>"%string) []); (Field (Some "proxy_type"%string) 197%N (Some "T::ProxyType"%string) []); (Field (Some "delay"%string) 4%N (Some "T::BlockNumber"%string) [])] 2%N ["Unregister a proxy account for the sender."%string; ""%string; "The dispatch origin for this call must be _Signed_."%string; ""%string; "Parameters:"%string; "- `proxy`: The account that the `caller` would like to remove as a proxy."%string; "- `proxy_type`: The permissions currently enabled for the removed proxy account."%string]); (Variant "remove_proxies"%string [] 3%N ["Unregister all proxy accounts for the sender."%string; ""%string; "The dispatch origin for this call must be _Signed_."%string; ""%string; "WARNING: This may be called on accounts created by `pure`, however if done, then"%string; "the unreserved fees will be inaccessible. **All access to this account will be lost.**"%string]); (Variant "create_pure"%string [(Field (Some "proxy_type"%string) 197%N (Some "T::ProxyType"%string) []); (Field (Some "delay"%string) 4%N (Some "T::BlockNumber"%string) []); (Field (Some "index"%string) 56%N (Some "u16"%string) [])] 4%N ["Spawn a fresh new account that is guaranteed to be otherwise inaccessible, and"%string; "initialize it with a proxy of `proxy_type` for `origin` sender."%string; ""%string; "Requires a `Signed` origin."%string; ""%string; "- `proxy_type`: The type of the proxy that the sender will be registered as over the"%string; "new account. This will almost always be the most permissive `ProxyType` possible to"%string; "allow for maximum flexibility."%string; "- `index`: A disambiguation index, in case this is called multiple times in the same"%string; "transaction (e.g. with `utility::batch`). Unless you're using `batch` you probably just"%string; "want to use `0`."%string; "- `delay`: The announcement period required of the initial proxy. Will generally be"%string; "zero."%string; ""%string; "Fails with `Duplicate` if this has already been called in this transaction, from the"%string; "same sender, with the same parameters."%string; ""%string; "Fails if there are insufficient funds to pay for deposit."%string]); (Variant "kill_pure"%string [(Field (Some "spawner"%string) 65%N (Some "AccountIdLookupOf<T>"%string) []); (Field (Some "proxy_type"%string) 197%N (Some "T::ProxyType"%string) []); (Field (Some "index"%string) 56%N (Some "u16"%string) []); (Field (Some "height"%string) 66%N (Some "T::BlockNumber"%string) []); (Field (Some "ext_index"%string) 66%N (Some "u32"%string) [])] 5%N ["Removes a previously spawned pure proxy."%string; ""%string; "WARNING: **All access to this account will be lost.** Any funds held in it will be"%string; "inaccessible."%string; ""%string; "Requires a `Signed` origin, and the sender account must have been created by a call to"%string; "`pure` with corresponding parameters."%string; ""%string; "- `spawner`: The account that originally called `pure` to create this account."%string; "- `index`: The disambiguation index originally passed to `pure`. Probably `0`."%string; "- `proxy_type`: The proxy type originally passed to `pure`."%string; "- `height`: The height of the chain when the call to `pure` was processed."%string; "- `ext_index`: The extrinsic index in which the call to `pure` was processed."%string; ""%string; "Fails with `NoPermission` in case the caller is not a previously created pure"%string; "account whose `pure` call has corresponding parameters."%string]); (Variant "announce"%string [(Field (Some "real"%string) 65%N (Some "AccountIdLookupOf<T>"%string) []); (Field (Some "call_hash"%string) 12%N (Some "CallHashOf<T>"%string) [])] 6%N ["Publish the hash of a proxy-call that will be made in the future."%string; ""%string; "This must be called some number of blocks before the corresponding `proxy` is attempted"%string; "if the delay associated with the proxy relationship is greater than zero."%string; ""%string; "No more than `MaxPending` announcements may be made at any one time."%string; ""%string; "This will take a deposit of `AnnouncementDepositFactor` as well as"%string; "`AnnouncementDepositBase` if there are no other pending announcements."%string; ""%string; "The dispatch origin for this call must be _Signed_ and a proxy of `real`."%string; ""%string; "Parameters:"%string; "- `real`: The account that the proxy will make a call on behalf of."%string; "- `call_hash`: The hash of the call to be made by the `real` account."%string]); (Variant "remove_announcement"%string [(Field (Some "real"%string) 65%N (Some "AccountIdLookupOf<T>"%string) []); (Field (Some "call_hash"%string) 12%N (Some "CallHashOf<T>"%string) [])] 7%N ["Remove a given announcement."%string; ""%string; "May be called by a proxy account to remove a call they previously announced and return"%string; "the deposit."%string; ""%string; "The dispatch origin for this call must be _Signed_."%string; ""%string; "Parameters:"%string; "- `real`: The account that the proxy will make a call on behalf of."%string; "- `call_hash`: The hash of the call to be made by the `real` account."%string]); (Variant "reject_announcement"%string [(Field (Some "delegate"%string) 65%N (Some "AccountIdLookupOf<T>"%string) []); (Field (Some "call_hash"%string) 12%N (Some "CallHashOf<T>"%string) [])] 8%N ["Remove the given announcement of a delegate."%string; ""%string; "May be called by a target (proxied) account to remove a call that one of their delegates"%string; "(`delegate`) has announced they want to execute. The deposit is returned."%string; ""%string; "The dispatch origin for this call must be _Signed_."%string; ""%string; "Parameters:"%string; "- `delegate`: The account that previously announced the call."%string; "- `call_hash`: The hash of the call to be made."%string]); (Variant "proxy_announced"%string [(Field (Some "delegate"%string) 65%N (Some "AccountIdLookupOf<T>"%string) []); (Field (Some "real"%string) 65%N (Some "AccountIdLookupOf<T>"%string) []); (Field (Some "force_proxy_type"%string) 196%N (Some "Option<T::ProxyType>"%string) []); (Field (Some "call"%string) 58%N (Some "Box<<T as Config>::RuntimeCall>"%string) [])] 9%N ["Dispatch the given `call` from an account that the sender is authorized for through"%string; "`add_proxy`."%string; ""%string; "Removes any corresponding announcement(s)."%string; ""%string; "The dispatch origin for this call must be _Signed_."%string; ""%string; "Parameters:"%string; "- `real`: The account that the proxy will make a call on behalf of."%string; "- `force_proxy_type`: Specify the exact proxy type to be used and checked for this call."%string; "- `call`: The call to be made by the `real` account."%string])]) ["Contains one variant per dispatchable that can be called by an extrinsic."%string]).
Definition md_t196 : ty := (Ty ["Option"%string] [("T"%string,(Some 197%N))] (TVariant [(Variant "None"%string [] 0%N []); (Variant "Some"%string [(Field None 197%N None [])] 1%N [])]) []).
Definition md_t197 : ty := (Ty ["bifrost_polkadot_runtime"%string; "ProxyType"%string] [] (TVariant [(Variant "Any"%string [] 0%N []); (Variant "NonTransfer"%string [] 1%N []); (Variant "Governance"%string [] 2%N []); (Variant "CancelProxy"%string [] 3%N []); (Variant "IdentityJudgement"%string [] 4%N [])]) []).
Definition md_t198 : ty := (Ty ["pallet_multisig"%string; "pallet"%string; "Call"%string] [("T"%string,None)] (TVariant [(Variant "as_multi_threshold_1"%string [(Field (Some "other_signatories"%string) 37%N (Some "Vec<T::AccountId>"%string) []); (Field (Some "call"%string) 58%N (Some "Box<<T as Config>::RuntimeCall>"%string) [])] 0%N ["Immediately dispatch a multi-signature call using a single approval from the caller."%string; ""%string; "The dispatch origin for this call must be _Signed_."%string; ""%string; "- `other_signatories`: The accounts (other than the sender) who are part of the"%string; "multi-signature, but do not participate in the approval process."%string; "- `call`: The call to be executed."%string; ""%string; "Result is equivalent to the dispatched result."%string; ""%string; "## Complexity"%string; "O(Z + C) where Z is the length of the call and C its execution weight."%string]); (Variant "as_multi"%string [(Field (Some "threshold"%string) 56%N (Some "u16"%string) []); (Field (Some "other_signatories"%string) 37%N (Some "Vec<T::AccountId>"%string) []); (Field (Some "maybe_timepoint"%string) 199%N (Some "Option<Timepoint<T::BlockNumber>>"%string) []); (Field (Some "call"%string) 58%N (Some "Box<<T as Config>::RuntimeCall>"%string) []); (Field (Some "max_weight"%string) 9%N (Some "Weight"%string) [])] 1%N ["Register approval for a dispatch to be made from a deterministic composite account if"%string; "approved by a total of `threshold - 1` of `other_signatories`."%string; ""%string; "If there are enough, then dispatch the call."%string; ""%string; "Payment: `DepositBase` will be reserved if this is the first approval, plus"%string; "`threshold` times `DepositFactor`. It is returned once this dispatch happens or"%string; "is cancelled."%string; ""%string; "The dispatch origin for this call must be _Signed_."%string; ""%string; "- `threshold`: The total number of approvals for this dispatch before it is executed."%string; "- `other_signatories`: The accounts (other than the sender) who can approve this"%string; "dispatch. May not be empty."%string; "- `maybe_timepoint`: If this is the first approval, then this must be `None`. If it is"%string; "not the first approval, then it must be `Some`, with the timepoint (block number and"%string; "transaction index) of the first approval transaction."%string; "- `call`: The call to be executed."%string; ""%string; "NOTE: Unless this is the final approval, you will generally want to use"%string; "`approve_as_multi` instead, since it only requires a hash of the call."%string; ""%string; "Result is equivalent to the dispatched result if `threshold` is exactly `1`. Otherwise"%string; "on success, result is `Ok` and the result from the interior call, if it was executed,"%string; "may be found in the deposited `MultisigExecuted` event."%string; ""%string; "## Complexity"%string; "- `O(S + Z + Call)`."%string; "- Up to one balance-reserve or unreserve operation."%string; "- One passthrough operation, one insert, both `O(S)` where `S` is the number of"%string; "  signatories. `S` is capped by `MaxSignatories`, with weight being proportional."%string; "- One call encode & hash, both of complexity `O(Z)` where `Z` is tx-len."%string; "- One encode & hash, both of complexity `O(S)`."%string; "- Up to one binary search and insert (`O(logS + S)`)."%string; "- I/O: 1 read `O(S)`, up to 1 mutate `O(S)`. Up to one remove."%string; "- One event."%string; "- The weight of the `call`."%string; "- Storage: inserts one item, value size bounded by `MaxSignatories`, with a deposit"%string; "  taken for its lifetime of `DepositBase + threshold * DepositFactor`."%string]); (Variant "approve_as_multi"%string [(Field (Some "threshold"%string) 56%N (Some "u16"%string) []); (Field (Some "other_signatories"%string) 37%N (Some "Vec<T::AccountId>"%string) []); (Field (Some "maybe_timepoint"%string) 199%N (Some "Option<Timepoint<T::BlockNumber>>"%string) []); (Field (Some "call_hash"%string) 1%N (Some "[u8; 32]"%string) []); (Field (Some "max_weight"%string) 9%N (Some "Weight"%string) [])] 2%N ["Register approval for a dispatch to be made from a deterministic composite account if"%string; "approved by a total of `threshold - 1` of `other_signatories`."%string; ""%string; "Payment: `DepositBase` will be reserved if this is the first approval, plus"%string; "`threshold` times `DepositFactor`. It is returned once this dispatch happens or"%string; "is cancelled."%string; ""%string; "The dispatch origin for this call must be _Signed_."%string; ""%string; "- `threshold`: The total number of approvals for this dispatch before it is executed."%string; "- `other_signatories`: The accounts (other than the sender) who can approve this"%string; "dispatch. May not be empty."%string; "- `maybe_timepoint`: If this is the first approval, then this must be `None`. If it is"%string; "not the first approval, then it must be `Some`, with the timepoint (block number and"%string; "transaction index) of the first approval transaction."%string; "- `call_hash`: The hash of the call to be executed."%string; ""%string; "NOTE: If this is the final approval, you will want to use `as_multi` instead."%string; ""%string; "## Complexity"%string; "- `O(S)`."%string; "- Up to one balance-reserve or unreserve operation."%string; "- One passthrough operation, one insert, both `O(S)` where `S` is the number of"%string; "  signatories. `S` is capped by `MaxSignatories`, with weight being proportional."%string; "- One encode & hash, both of complexity `O(S)`."%string; "- Up to one binary search and insert (`O(logS + S)`)."%string; "- I/O: 1 read `O(S)`, up to 1 mutate `O(S)`. Up to one remove."%string; "- One event."%string; "- Storage: inserts one item, value size bounded by `MaxSignatories`, with a deposit"%string; "  taken for its lifetime of `DepositBase + threshold * DepositFactor`."%string]); (Variant "cancel_as_multi"%string [(Field (Some "threshold"%string) 56%N (Some "u16"%string) []); (Field (Some "other_signatories"%string) 37%N (Some "Vec<T::AccountId>"%string) []); (Field (Some "timepoint"%string) 200%N (Some "Timepoint<T::BlockNumber>"%string) []); (Field (Some "call_hash"%string) 1%N (Some "[u8; 32]"%string) [])] 3%N ["Cancel a pre-existing, on-going multisig transaction. Any deposit reserved previously"%string; "for this operation will be unreserved on success."%string; ""%string; "The dispatch origin for this call must be _Signed_."%string; ""%string; "- `threshold`: The total number of approvals for this dispatch before it is executed."%string; "- `other_signatories`: The accounts (other than the sender) who can approve this"%string; "dispatch. May not be empty."%string; "- `timepoint`: The timepoint (block number and transaction index) of the first approval"%string; "transaction for this dispatch."%string; "- `call_hash`: The hash of the call to be executed."%string; ""%string; "## Complexity"%string; "- `O(S)`."%string; "- Up to one balance-reserve or unreserve operation."%string; "- One passthrough operation, one insert, both `O(S)` where `S` is the number of"%string; "  signatories. `S` is capped by `MaxSignatories`, with weight being proportional."%string; "- One encode & hash, both of complexity `O(S)`."%string; "- One event."%string; "- I/O: 1 read `O(S)`, one remove."%string; "- Storage: removes one item."%string])]) ["Contains one variant per dispatchable that can be called by an extrinsic."%string]).
Definition md_t199 : ty := (Ty ["Option"%string] [("T"%string,(Some 200%N))] (TVariant [(Variant "None"%string [] 0%N []); (Variant "Some"%string [(Field None 200%N None [])] 1%N [])]) []).
Definition md_t200 : ty := (Ty ["pallet_multisig"%string; "Timepoint"%string] [("BlockNumber"%string,(Some 4%N))] (TComposite [(Field (Some "height"%string) 4%N (Some "BlockNumber"%string) []); (Field (Some "index"%string) 4%N (Some "u32"%string) [])]) []).
Definition md_t201 : ty := (Ty ["pallet_identity"%string; "pallet"%string; "Call"%string] [("T"%string,None)] (TVariant [(Variant "add_registrar"%string [(Field (Some "account"%string) 65%N (Some "AccountIdLookupOf<T>"%string) [])] 0%N ["Add a registrar to the system."%string; ""%string; "The dispatch origin for this call must be `T::RegistrarOrigin`."%string; ""%string; "- `account`: the account of the registrar."%string; ""%string; "Emits `RegistrarAdded` if successful."%string; ""%string; "## Complexity"%string; "- `O(R)` where `R` registrar-count (governance-bounded and code-bounded)."%string]); (Variant "set_identity"%string [(Field (Some "info"%string) 202%N (Some "Box<IdentityInfo<T::MaxAdditionalFields>>"%string) [])] 1%N ["Set an account's identity information and reserve the appropriate deposit."%string; ""%string; "If the account already has identity information, the deposit is taken as part payment"%string; "for the new deposit."%string; ""%string; "The dispatch origin for this call must be _Signed_."%string; ""%string; "- `info`: The identity information."%string; ""%string; "Emits `IdentitySet` if successful."%string; ""%string; "## Complexity"%string; "- `O(X + X' + R)`"%string; "  - where `X` additional-field-count (deposit-bounded and code-bounded)"%string; "  - where `R` judgements-count (registrar-count-bounded)"%string]); (Variant "set_subs"%string [(Field (Some "subs"%string) 236%N (Some "Vec<(T::AccountId, Data)>"%string) [])] 2%N ["Set the sub-accounts of the sender."%string; ""%string; "Payment: Any aggregate balance reserved by previous `set_subs` calls will be returned"%string; "and an amount `SubAccountDeposit` will be reserved for each item in `subs`."%string; ""%string; "The dispatch origin for this call must be _Signed_ and the sender must have a registered"%string; "identity."%string; ""%string; "- `subs`: The identity's (new) sub-accounts."%string; ""%string; "## Complexity"%string; "- `O(P + S)`"%string; "  - where `P` old-subs-count (hard- and deposit-bounded)."%string; "  - where `S` subs-count (hard- and deposit-bounded)."%string]); (Variant "clear_identity"%string [] 3%N ["Clear an account's identity info and all sub-accounts and return all deposits."%string; ""%string; "Payment: All reserved balances on the account are returned."%string; ""%string; "The dispatch origin for this call must be _Signed_ and the sender must have a registered"%string; "identity."%string; ""%string; "Emits `IdentityCleared` if successful."%string; ""%string; "## Complexity"%string; "- `O(R + S + X)`"%string; "  - where `R` registrar-count (governance-bounded)."%string; "  - where `S` subs-count (hard- and deposit-bounded)."%string; "  - where `X` additional-field-count (deposit-bounded and code-bounded)."%string]); (Variant "request_judgement"%string [(Field (Some "reg_index"%string) 66%N (Some "RegistrarIndex"%string) []); (Field (Some "max_fee"%string) 83%N (Some "BalanceOf<T>"%string) [])] 4%N ["Request a judgement from a registrar."%string; ""%string; "Payment: At most `max_fee` will be reserved for payment to the registrar if judgement"%string; "given."%string; ""%string; "The dispatch origin for this call must be _Signed_ and the sender must have a"%string; "registered identity."%string; ""%string; "- `reg_index`: The index of the registrar whose judgement is requested."%string; "- `max_fee`: The maximum fee that may be paid. This should just be auto-populated as:"%string; ""%string; "```nocompile"%string; "Self::registrars().get(reg_index).unwrap().fee"%string; "```"%string; ""%string; "Emits `JudgementRequested` if successful."%string; ""%string; "## Complexity"%string; "- `O(R + X)`."%string; "  - where `R` registrar-count (governance-bounded)."%string; "  - where `X` additional-field-count (deposit-bounded and code-bounded)."%string]); (Variant "cancel_request"%string [(Field (Some "reg_index"%string) 4%N (Some "RegistrarIndex"%string) [])] 5%N ["Cancel a previous request."%string; ""%string; "Payment: A previously reserved deposit is returned on success."%string; ""%string; "The dispatch origin for this call must be _Signed_ and the sender must have a"%string; "registered identity."%string; ""%string; "- `reg_index`: The index of the registrar whose judgement is no longer requested."%string; ""%string; "Emits `JudgementUnrequested` if successful."%string; ""%string; "## Complexity"%string; "- `O(R + X)`."%string; "  - where `R` registrar-count (governance-bounded)."%string; "  - where `X` additional-field-count (deposit-bounded and code-bounded)."%string]); (Variant "set_fee"%string [(Field (Some "index"%string) 66%N (Some "RegistrarIndex"%string) []); (Field (Some "fee"%string) 83%N (Some "BalanceOf<T>"%string) [])] 6%N ["Set the fee required for a judgement to be requested from a registrar."%string; ""%string; "The dispatch origin for this call must be _Signed_ and the sender must be the account"%string; "of the registrar whose index is `index`."%string; ""%string; "- `index`: the index of the registrar whose fee is to be set."%string; "- `fee`: the new fee."%string; ""%string; "## Complexity"%string; "- `O(R)`."%string; "  - where `R` registrar-count (governance-bounded)."%string]); (Variant "set_account_id"%string [(Field (Some "index"%string) 66%N (Some "RegistrarIndex"%string) []); (Field (Some "new"%string) 65%N (Some "AccountIdLookupOf<T>"%string) [])] 7%N ["Change the account associated with a registrar."%string; ""%string; "The dispatch origin for this call must be _Signed_ and the sender must be the account"%string; "of the registrar whose index is `index`."%string; ""%string; "- `index`: the index of the registrar whose fee is to be set."%string; "- `new`: the new account ID."%string; ""%string; "## Complexity"%string; "- `O(R)`."%string; "  - where `R` registrar-count (governance-bounded)."%string]); (Variant "set_fields"%string [(Field (Some "index"%string) 66%N (Some "RegistrarIndex"%string) []); (Field (Some "fields"%string) 238%N (Some "IdentityFields"%string) [])] 8%N ["Set the field information for a registrar."%string; ""%string; "The dispatch origin for this call must be _Signed_ and the sender must be the account"%string; "of the registrar whose index is `index`."%string; ""%string; "- `index`: the index of the registrar whose fee is to be set."%string; "- `fields`: the fields that the registrar concerns themselves with."%string; ""%string; "## Complexity"%string; "- `O(R)`."%string; "  - where `R` registrar-count (governance-bounded)."%string]); (Variant "provide_judgement"%string [(Field (Some "reg_index"%string) 66%N (Some "RegistrarIndex"%string) []); (Field (Some "target"%string) 65%N (Some "AccountIdLookupOf<T>"%string) []); (Field (Some "judgement"%string) 240%N (Some "Judgement<BalanceOf<T>>"%string) []); (Field (Some "identity"%string) 12%N (Some "T::Hash"%string) [])] 9%N ["Provide a judgement for an account's identity."%string; ""%string; "The dispatch origin for this call must be _Signed_ and the sender must be the account"%string; "of the registrar whose index is `reg_index`."%string; ""%string; "- `reg_index`: the index of the registrar whose judgement is being made."%string; "- `target`: the account whose identity the judgement is upon. This must be an account"%string; "  with a registered identity."%string; "- `judgement`: the judgement of the registrar of index `reg_index` about `target`."%string; "- `identity`: The hash of the [`IdentityInfo`] for that the judgement is provided."%string; ""%string; "Emits `JudgementGiven` if successful."%string; ""%string; "## Complexity"%string; "- `O(R + X)`."%string; "  - where `R` registrar-count (governance-bounded)."%string; "  - where `X` additional-field-count (deposit-bounded and code-bounded)."%string]); (Variant "kill_identity"%string [(Field (Some "target"%string) 65%N (Some "AccountIdLookupOf<T>"%string) [])] 10%N ["Remove an account's identity and sub-account information and slash the deposits."%string; ""%string; "Payment: Reserved balances from `set_subs` and `set_identity` are slashed and handled by"%string; "`Slash`. Verification request deposits are not returned; they should be cancelled"%string; "manually using `cancel_request`."%string; ""%string; "The dispatch origin for this call must match `T::ForceOrigin`."%string; ""%string; "- `target`: the account whose identity the judgement is upon. This must be an account"%string; "  with a registered identity."%string; ""%string; "Emits `IdentityKilled` if successful."%string; ""%string; "## Complexity"%string; "- `O(R + S + X)`"%string; "  - where `R` registrar-count (governance-bounded)."%string; "  - where `S` subs-count (hard- and deposit-bounded)."%string; "  - where `X` additional-field-count (deposit-bounded and code-bounded)."%string]); (Variant "add_sub"%string [(Field (Some "sub"%string) 65%N (Some "AccountIdLookupOf<T>"%string) []); (Field (Some "data"%string) 205%N (Some "Data"%string) [])] 11%N ["Add the given account to the sender's subs."%string; ""%string; "Payment: Balance reserved by a previous `set_subs` call for one sub will be repatriated"%string; "to the sender."%string; ""%string; "The dispatch origin for this call must be _Signed_ and the sender must have a registered"%string; "sub identity of `sub`."%string]); (Variant "rename_sub"%string [(Field (Some "sub"%string) 65%N (Some "AccountIdLookupOf<T>"%string) []); (Field (Some "data"%string) 205%N (Some "Data"%string) [])] 12%N ["Alter the associated name of the given sub-account."%string; ""%string; "The dispatch origin for this call must be _Signed_ and the sender must have a registered"%string; "sub identity of `sub`."%string]); (Variant "remove_sub"%string [(Field (Some "sub"%string) 65%N (Some "AccountIdLookupOf<T>"%string) [])] 13%N ["Remove the given account from the sender's subs."%string; ""%string; "Payment: Balance reserved by a previous `set_subs` call for one sub will be repatriated"%string; "to the sender."%string; ""%string; "The dispatch origin for this call must be _Signed_ and the sender must have a registered"%string; "sub identity of `sub`."%string]); (Variant "quit_sub"%string [] 14%N ["Remove the sender as a sub-account."%string; ""%string; "Payment: Balance reserved by a previous `set_subs` call for one sub will be repatriated"%string; "to the sender (*not* the original depositor)."%string; ""%string; "The dispatch origin for this call must be _Signed_ and the sender must have a registered"%string; "super-identity."%string; ""%string; "NOTE: This should not normally be used, but is provided in the case that the non-"%string; "controller of an account is maliciously registered as a sub-account."%string])]) ["Identity pallet declaration."%string]).
Definition md_t202 : ty := (Ty ["pallet_identity"%string; "types"%string; "IdentityInfo"%string] [("FieldLimit"%string,None)] (TComposite [(Field (Some "additional"%string) 203%N (Some "BoundedVec<(Data, Data), FieldLimit>"%string) []); (Field (Some "display"%string) 205%N (Some "Data"%string) []); (Field (Some "legal"%string) 205%N (Some "Data"%string) []); (Field (Some "web"%string) 205%N (Some "Data"%string) []); (Field (Some "riot"%string) 205%N (Some "Data"%string) []); (Field (Some "email"%string) 205%N (Some "Data"%string) []); (Field (Some "pgp_fingerprint"%string) 235%N (Some "Option<[u8; 20]>"%string) []); (Field (Some "image"%string) 205%N (Some "Data"%string) []); (Field (Some "twitter"%string) 205%N (Some "Data"%string) [])]) []).
Definition md_t203 : ty := (Ty ["bounded_collections"%string; "bounded_vec"%string; "BoundedVec"%string] [("T"%string,(Some 204%N)); ("S"%string,None)] (TComposite [(Field None 234%N (Some "Vec<T>"%string) [])]) []).
Definition md_t204 : ty := (Ty [] [] (TTuple [205%N; 205%N]) []).
Definition md_t205 : ty := (Ty ["pallet_identity"%string; "types"%string; "Data"%string] [] (TVariant [(Variant "None"%string [] 0%N []); (Variant "Raw0"%string [(Field None 206%N None [])] 1%N []); (Variant "Raw1"%string [(Field None 207%N None [])] 2%N []); (Variant "Raw2"%string [(Field None 208%N None [])] 3%N []); (Variant "Raw3"%string [(Field None 209%N None [])] 4%N []); (Variant "Raw4"%string [(Field None 17%N None [])] 5%N []); (Variant "Raw5"%string [(Field None 210%N None [])] 6%N []); (Variant "Raw6"%string [(Field None 211%N None [])] 7%N []); (Variant "Raw7"%string [(Field None 212%N None [])] 8%N []); (Variant "Raw8"%string [(Field None 143%N None [])] 9%N []); (Variant "Raw9"%string [(Field None 213%N None [])] 10%N []); (Variant "Raw10"%string [(Field None 214%N None [])] 11%N []); (Variant "Raw11"%string [(Field None 215%N None [])] 12%N []); (Variant "Raw12"%string [(Field None 216%N None [])] 13%N []); (Variant "Raw13"%string [(Field None 217%N None [])] 14%N []); (Variant "Raw14"%string [(Field None 218%N None [])] 15%N []); (Variant "Raw15"%string [(Field None 219%N None [])] 16%N []); (Variant "Raw16"%string [(Field None 144%N None [])] 17%N []); (Variant "Raw17"%string [(Field None 220%N None [])] 18%N []); (Variant "Raw18"%string [(Field None 221%N None [])] 19%N []); (Variant "Raw19"%string [(Field None 222%N None [])] 20%N []); (Variant "Raw20"%string [(Field None 67%N None [])] 21%N []); (Variant "Raw21"%string [(Field None 223%N None [])] 22%N []); (Variant "Raw22"%string [(Field None 224%N None [])] 23%N []); (Variant "Raw23"%string [(Field None 225%N None [])] 24%N []); (Variant "Raw24"%string [(Field None 226%N None [])] 25%N []); (Variant "Raw25"%string [(Field None 227%N None [])] 26%N []); (Variant "Raw26"%string [(Field None 228%N None [])] 27%N []); (Variant "Raw27"%string [(Field None 229%N None [])] 28%N []); (Variant "Raw28"%string [(Field None 230%N None [])] 29%N []); (Variant "Raw29"%string [(Field None 231%N None [])] 30%N []); (Variant "Raw30"%string [(Field None 232%N None [])] 31%N []); (Variant "Raw31"%string [(Field None 233%N None [])] 32%N []); (Variant "Raw32"%string [(Field None 1%N None [])] 33%N []); (Variant "BlakeTwo256"%string [(Field None 1%N None [])] 34%N []); (Variant "Sha256"%string [(Field None 1%N None [])] 35%N []); (Variant "Keccak256"%string [(Field None 1%N None [])] 36%N []); (Variant "ShaThree256"%string [(Field None 1%N None [])] 37%N [])]) []).
Definition md_t206 : ty := (Ty [] [] (TArray 0%N 2%N) []).
Definition md_t207 : ty := (Ty [] [] (TArray 1%N 2%N) []).
Definition md_t208 : ty := (Ty [] [] (TArray 2%N 2%N) []).
Definition md_t209 : ty := (Ty [] [] (TArray 3%N 2%N) []).
Definition md_t210 : ty := (Ty [] [] (TArray 5%N 2%N) []).
Definition md_t211 : ty := (Ty [] [] (TArray 6%N 2%N) []).
Definition md_t212 : ty := (Ty [] [] (TArray 7%N 2%N) []).
Definition md_t213 : ty := (Ty [] [] (TArray 9%N 2%N) []).
Definition md_t214 : ty := (Ty [] [] (TArray 10%N 2%N) []).
Definition md_t215 : ty := (Ty [] [] (TArray 11%N 2%N) []).
Definition md_t216 : ty := (Ty [] [] (TArray 12%N 2%N) []).
Definition md_t217 : ty := (Ty [] [] (TArray 13%N 2%N) []).
Definition md_t218 : ty := (Ty [] [] (TArray 14%N 2%N) []).
Definition md_t219 : ty := (Ty [] [] (TArray 15%N 2%N) []).
Definition md_t220 : ty := (Ty [] [] (TArray 17%N 2%N) []).
Definition md_t221 : ty := (Ty [] [] (TArray 18%N 2%N) []).
Definition md_t222 : ty := (Ty [] [] (TArray 19%N 2%N) []).
Definition md_t223 : ty := (Ty [] [] (TArray 21%N 2%N) []).
Definition md_t224 : ty := (Ty [] [] (TArray 22%N 2%N) []).
Definition md_t225 : ty := (Ty [] [] (TArray 23%N 2%N) []).
Definition md_t226 : ty := (Ty [] [] (TArray 24%N 2%N) []).
Definition md_t227 : ty := (Ty [] [] (TArray 25%N 2%N) []).
Definition md_t228 : ty := (Ty [] [] (TArray 26%N 2%N) []).
Definition md_t229 : ty := (Ty [] [] (TArray 27%N 2%N) []).
Definition md_t230 : ty := (Ty [] [] (TArray 28%N 2%N) []).
Definition md_t231 : ty := (Ty [] [] (TArray 29%N 2%N) []).
Definition md_t232 : ty := (Ty [] [] (TArray 30%N 2%N) []).
Definition md_t233 : ty := (Ty [] [] (TArray 31%N 2%N) []).
Definition md_t234 : ty := (Ty [] [] (TSequence 204%N) []).
Definition md_t235 : ty := (Ty ["Option"%string] [("T"%string,(Some 67%N))] (TVariant [(Variant "None"%string [] 0%N []); (Variant "Some"%string [(Field None 67%N None [])] 1%N [])]) []).
Definition md_t236 : ty := (Ty [] [] (TSequence 237%N) []).
Definition md_t237 : ty := (Ty [] [] (TTuple [0%N; 205%N]) []).
Definition md_t238 : ty := (Ty ["pallet_identity"%string; "types"%string; "BitFlags"%string] [("T"%string,(Some 239%N))] (TComposite [(Field None 11%N (Some "IdentityField"%string) [])]) []).
Definition md_t239 : ty := (Ty ["pallet_identity"%string; "types"%string; "IdentityField"%string] [] (TVariant [(Variant "Display"%string [] 1%N []); (Variant "Legal"%string [] 2%N []); (Variant "Web"%string [] 4%N []); (Variant "Riot"%string [] 8%N []); (Variant "Email"%string [] 16%N []); (Variant "PgpFingerprint"%string [] 32%N []); (Variant "Image"%string [] 64%N []); (Variant "Twitter"%string [] 128%N [])]) []).
Definition md_t240 : ty := (Ty ["pallet_identity"%string; "types"%string; "Judgement"%string] [("Balance"%string,(Some 6%N))] (TVariant [(Variant "Unknown"%string [] 0%N []); (Variant "FeePaid"%string [(Field None 6%N (Some "Balance"%string) [])] 1%N []); (Variant "Reasonable"%string [] 2%N []); (Variant "KnownGood"%string [] 3%N []); (Variant "OutOfDate"%string [] 4%N []); (Variant "LowQuality"%string [] 5%N []); (Variant "Erroneous"%string [] 6%N [])]) []).
Definition md_t241 : ty := (Ty ["bifrost_vesting"%string; "pallet"%string; "Call"%string] [("T"%string,None)] (TVariant [(Variant "vest"%string [] 0%N ["Unlock any vested funds of the sender account."%string; ""%string; "The dispatch origin for this call must be _Signed_ and the sender must have funds still"%string; "locked under this pallet."%string; ""%string; "Emits either `VestingCompleted` or `VestingUpdated`."%string; ""%string; "# <weight>"%string; "- `O(1)`."%string; "- DbWeight: 2 Reads, 2 Writes"%string; "    - Reads: Vesting Storage, Balances Locks, [Sender Account]"%string; "    - Writes: Vesting Storage, Balances Locks, [Sender Account]"%string; "# </weight>"%string]); (Variant "vest_other"%string [(Field (Some "target"%string) 65%N (Some "<T::Lookup as StaticLookup>::Source"%string) [])] 1%N ["Unlock any vested funds of a `target` account."%string; ""%string; "The dispatch origin for this call must be _Signed_."%string; ""%string; "- `target`: The account whose vested funds should be unlocked. Must have funds still"%string; "locked under this pallet."%string; ""%string; "Emits either `VestingCompleted` or `VestingUpdated`."%string; ""%string; "# <weight>"%string; "- `O(1)`."%string; "- DbWeight: 3 Reads, 3 Writes"%string; "    - Reads: Vesting Storage, Balances Locks, Target Account"%string; "    - Writes: Vesting Storage, Balances Locks, Target Account"%string; "# </weight>"%string]); (Variant "vested_transfer"%string [(Field (Some "target"%string) 65%N (Some "<T::Lookup as StaticLookup>::Source"%string) []); (Field (Some "schedule"%string) 242%N (Some "VestingInfo<BalanceOf<T>, T::BlockNumber>"%string) [])] 2%N ["Create a vested transfer."%string; ""%string; "The dispatch origin for this call must be _Signed_."%string; ""%string; "- `target`: The account that should be transferred the vested funds."%string; "- `amount`: The amount of funds to transfer and will be vested."%string; "- `schedule`: The vesting schedule attached to the transfer."%string; ""%string; "Emits `VestingCreated`."%string; ""%string; "# <weight>"%string; "- `O(1)`."%string; "- DbWeight: 3 Reads, 3 Writes"%string; "    - Reads: Vesting Storage, Balances Locks, Target Account, [Sender Account]"%string; "    - Writes: Vesting Storage, Balances Locks, Target Account, [Sender Account]"%string; "# </weight>"%string]); (Variant "force_vested_transfer"%string [(Field (Some "source"%string) 65%N (Some "<T::Lookup as StaticLookup>::Source"%string) []); (Field (Some "target"%string) 65%N (Some "<T::Lookup as StaticLookup>::Source"%string) []); (Field (Some "schedule"%string) 242%N (Some "VestingInfo<BalanceOf<T>, T::BlockNumber>"%string) [])] 3%N ["Force a vested transfer."%string; ""%string; "The dispatch origin for this call must be _Root_."%string; ""%string; "- `source`: The account whose funds should be transferred."%string; "- `target`: The account that should be transferred the vested funds."%string; "- `amount`: The amount of funds to transfer and will be vested."%string; "- `schedule`: The vesting schedule attached to the transfer."%string; ""%string; "Emits `VestingCreated`."%string; ""%string; "# <weight>"%string; "- `O(1)`."%string; "- DbWeight: 4 Reads, 4 Writes"%string; "    - Reads: Vesting Storage, Balances Locks, Target Account, Source Account"%string; "    - Writes: Vesting Storage, Balances Locks, Target Account, Source Account"%string; "# </weight>"%string]); (Variant "force_set_vested"%string [(Field (Some "source"%string) 65%N (Some "<T::Lookup as StaticLookup>::Source"%string) []); (Field (Some "target"%string) 65%N (Some "<T::Lookup as StaticLookup>::Source"%string) []); (Field (Some "schedule"%string) 242%N (Some "VestingInfo<BalanceOf<T>, T::BlockNumber>"%string) [])] 4%N []); (Variant "init_vesting_start_at"%string [(Field (Some "vesting_start_at"%string) 4%N (Some "T::BlockNumber"%string) [])] 5%N []); (Variant "set_vesting_per_block"%string [(Field (Some "target"%string) 65%N (Some "<T::Lookup as StaticLookup>::Source"%string) []); (Field (Some "per_block"%string) 6%N (Some "BalanceOf<T>"%string) [])] 6%N []); (Variant "force_set_cliff"%string [(Field (Some "target"%string) 65%N (Some "<T::Lookup as StaticLookup>::Source"%string) []); (Field (Some "cliff_block"%string) 4%N (Some "T::BlockNumber"%string) [])] 7%N [])]) ["Contains one variant per dispatchable that can be called by an extrinsic."%string]).
Definition md_t242 : ty := (Ty ["bifrost_vesting"%string; "VestingInfo"%string] [("Balance"%string,(Some 6%N)); ("BlockNumber"%string,(Some 4%N))] (TComposite [(Field (Some "locked"%string) 6%N (Some "Balance"%string) []); (Field (Some "per_block"%string) 6%N (Some "Balance"%string) []); (Field (Some "starting_block"%string) 4%N (Some "BlockNumber"%string) [])]) []).
Definition md_t243 : ty := (Ty ["pallet_treasury"%string; "pallet"%string; "Call"%string] [("T"%string,None); ("I"%string,None)] (TVariant [(Variant "propose_spend"%string [(Field (Some "value"%string) 83%N (Some "BalanceOf<T, I>"%string) []); (Field (Some "beneficiary"%string) 65%N (Some "AccountIdLookupOf<T>"%string) [])] 0%N ["Put forward a suggestion for spending. A deposit proportional to the value"%string; "is reserved and slashed if the proposal is rejected. It is returned once the"%string; "proposal is awarded."%string; ""%string; "## Complexity"%string; "- O(1)"%string]); (Variant "reject_proposal"%string [(Field (Some "proposal_id"%string) 66%N (Some "ProposalIndex"%string) [])] 1%N ["Reject a proposed spend. The original deposit will be slashed."%string; ""%string; "May only be called from `T::RejectOrigin`."%string; ""%string; "## Complexity"%string; "- O(1)"%string]); (Variant "approve_proposal"%string [(Field (Some "proposal_id"%string) 66%N (Some "ProposalIndex"%string) [])] 2%N ["Approve a proposal. At a later time, the proposal will be allocated to the beneficiary"%string; "and the original deposit will be returned."%string; ""%string; "May only be called from `T::ApproveOrigin`."%string; ""%string; "## Complexity"%string; " - O(1)."%string]); (Variant "spend"%string [(Field (Some "amount"%string) 83%N (Some "BalanceOf<T, I>"%string) []); (Field (Some "beneficiary"%string) 65%N (Some "AccountIdLookupOf<T>"%string) [])] 3%N ["Propose and approve a spend of treasury funds."%string; ""%string; "- `origin`: Must be `SpendOrigin` with the `Success` value being at least `amount`."%string; "- `amount`: The amount to be transferred from the treasury to the `beneficiary`."%string; "- `beneficiary`: The destination account for the transfer."%string; ""%string; "NOTE: For record-keeping purposes, the proposer is deemed to be equivalent to the"%string; "beneficiary."%string]); (Variant "remove_approval"%string [(Field (Some "proposal_id"%string) 66%N (Some "ProposalIndex"%string) [])] 4%N ["Force a previously approved proposal to be removed from the approval queue."%string; "The original deposit will no longer be returned."%string; ""%string; "May only be called from `T::RejectOrigin`."%string; "- `proposal_id`: The index of a proposal"%string; ""%string; "## Complexity"%string; "- O(A) where `A` is the number of approvals"%string; ""%string; "Errors:"%string; "- `ProposalNotApproved`: The `proposal_id` supplied was not found in the approval queue,"%string; "i.e., the proposal has not been approved. This could also mean the proposal does not"%string; "exist altogether, thus there is no way it would have been approved in the first place."%string])]) ["Contains one variant per dispatchable that can be called by an extrinsic."%string]).
Definition md_t244 : ty := (Ty ["pallet_bounties"%string; "pallet"%string; "Call"%string] [("T"%string,None); ("I"%string,None)] (TVariant [(Variant "propose_bounty"%string [(Field (Some "value"%string) 83%N (Some "BalanceOf<T, I>"%string) []); (Field (Some "description"%string) 13%N (Some "Vec<u8>"%string) [])] 0%N ["Propose a new bounty."%string; ""%string; "The dispatch origin for this call must be _Signed_."%string; ""%string; "Payment: `TipReportDepositBase` will be reserved from the origin account, as well as"%string; "`DataDepositPerByte` for each byte in `reason`. It will be unreserved upon approval,"%string; "or slashed when rejected."%string; ""%string; "- `curator`: The curator account whom will manage this bounty."%string; "- `fee`: The curator fee."%string; "- `value`: The total payment amount of this bounty, curator fee included."%string; "- `description`: The description of this bounty."%string]); (Variant "approve_bounty"%string [(Field (Some "bounty_id"%string) 66%N (Some "BountyIndex"%string) [])] 1%N ["Approve a bounty proposal. At a later time, the bounty will be funded and become active"%string; "and the original deposit will be returned."%string; ""%string; "May only be called from `T::SpendOrigin`."%string; ""%string; "## Complexity"%string; "- O(1)."%string]); (Variant "propose_curator"%string [(Field (Some "bounty_id"%string) 66%N (Some "BountyIndex"%string) []); (Field (Some "curator"%string) 65%N (Some "AccountIdLookupOf<T>"%string) []); (Field (Some "fee"%string) 83%N (Some "BalanceOf<T, I>"%string) [])] 2%N ["Assign a curator to a funded bounty."%string; ""%string; "May only be called from `T::SpendOrigin`."%string; ""%string; "## Complexity"%string; "- O(1)."%string]); (Variant "unassign_curator"%string [(Field (Some "bounty_id"%string) 66%N (Some "BountyIndex"%string) [])] 3%N ["Unassign curator from a bounty."%string; ""%string; "This function can only be called by the `RejectOrigin` a signed origin."%string; ""%string; "If this function is called by the `RejectOrigin`, we assume that the curator is"%string; "malicious or inactive. As a result, we will slash the curator when possible."%string; ""%string; "If the origin is the curator, we take this as a sign they are unable to do their job and"%string; "they willingly give up. We could slash them, but for now we allow them to recover their"%string; "deposit and exit without issue. (We may want to change this if it is abused.)"%string; ""%string; "Finally, the origin can be anyone if and only if the curator is ""inactive"". This allows"%string; "anyone in the community to call out that a curator is not doing their due diligence, and"%string; "we should pick a new curator. In this case the curator should also be slashed."%string; ""%string; "## Complexity"%string; "- O(1)."%string]); (Variant "accept_curator"%string [(Field (Some "bounty_id"%string) 66%N (Some "BountyIndex"%string) [])] 4%N ["Accept the curator role for a bounty."%string; "A deposit will be reserved from curator and refund upon successful payout."%string; ""%string; "May only be called from the curator."%string; ""%string; "## Complexity"%string; "- O(1)."%string]); (Variant "award_bounty"%string [(Field (Some "bounty_id"%string) 66%N (Some "BountyIndex"%string) []); (Field (Some "beneficiary"%string) 65%N (Some "AccountIdLookupOf<T>"%string) [])] 5%N ["Award bounty to a beneficiary account. The beneficiary will be able to claim the funds"%string; "after a delay."%string; ""%string; "The dispatch origin for this call must be the curator of this bounty."%string; ""%string; "- `bounty_id`: Bounty ID to award."%string; "- `beneficiary`: The beneficiary account whom will receive the payout."%string; ""%string; "## Complexity"%string; "- O(1)."%string]); (Variant "claim_bounty"%string [(Field (Some "bounty_id"%string) 66%N (Some "BountyIndex"%string) [])] 6%N ["Claim the payout from an awarded bounty after payout delay."%string; ""%string; "The dispatch origin for this call must be the beneficiary of this bounty."%string; ""%string; "- `bounty_id`: Bounty ID to claim."%string; ""%string; "## Complexity"%string; "- O(1)."%string]); (Variant "close_bounty"%string [(Field (Some "bounty_id"%string) 66%N (Some "BountyIndex"%string) [])] 7%N ["Cancel a proposed or active bounty. All the funds will be sent to treasury and"%string; "the curator deposit will be unreserved if possible."%string; ""%string; "Only `T::RejectOrigin` is able to cancel a bounty."%string; ""%string; "- `bounty_id`: Bounty ID to cancel."%string; ""%string; "## Complexity"%string; "- O(1)."%string]); (Variant "extend_bounty_expiry"%string [(Field (Some "bounty_id"%string) 66%N (Some "BountyIndex"%string) []); (Field (Some "remark"%string) 13%N (Some "Vec<u8>"%string) [])] 8%N ["Extend the expiry time of an active bounty."%string; ""%string; "The dispatch origin for this call must be the curator of this bounty."%string; ""%string; "- `bounty_id`: Bounty ID to extend."%string; "- `remark`: additional information."%string; ""%string; "## Complexity"%string; "- O(1)."%string])]) ["Contains one variant per dispatchable that can be called by an extrinsic."%string]).
Definition md_t245 : ty := (Ty ["pallet_tips"%string; "pallet"%string; "Call"%string] [("T"%string,None); ("I"%string,None)] (TVariant [(Variant "report_awesome"%string [(Field (Some "reason"%string) 13%N (Some "Vec<u8>"%string) []); (Field (Some "who"%string) 65%N (Some "AccountIdLookupOf<T>"%string) [])] 0%N ["Report something `reason` that deserves a tip and claim any eventual the finder's fee."%string; ""%string; "The dispatch origin for this call must be _Signed_."%string; ""%string; "Payment: `TipReportDepositBase` will be reserved from the origin account, as well as"%string; "`DataDepositPerByte` for each byte in `reason`."%string; ""%string; "- `reason`: The reason for, or the thing that deserves, the tip; generally this will be"%string; "  a UTF-8-encoded URL."%string; "- `who`: The account which should be credited for the tip."%string; ""%string; "Emits `NewTip` if successful."%string; ""%string; "## Complexity"%string; "- `O(R)` where `R` length of `reason`."%string; "  - encoding and hashing of 'reason'"%string]); (Variant "retract_tip"%string [(Field (Some "hash"%string) 12%N (Some "T::Hash"%string) [])] 1%N ["Retract a prior tip-report from `report_awesome`, and cancel the process of tipping."%string; ""%string; "If successful, the original deposit will be unreserved."%string; ""%string; "The dispatch origin for this call must be _Signed_ and the tip identified by `hash`"%string; "must have been reported by the signing account through `report_awesome` (and not"%string; "through `tip_new`)."%string; ""%string; "- `hash`: The identity of the open tip for which a tip value is declared. This is formed"%string; "  as the hash of the tuple of the original tip `reason` and the beneficiary account ID."%string; ""%string; "Emits `TipRetracted` if successful."%string; ""%string; "## Complexity"%string; "- `O(1)`"%string; "  - Depends on the length of `T::Hash` which is fixed."%string]); (Variant "tip_new"%string [(Field (Some "reason"%string) 13%N (Some "Vec<u8>"%string) []); (Field (Some "who"%string) 65%N (Some "AccountIdLookupOf<T>"%string) []); (Field (Some "tip_value"%string) 83%N (Some "BalanceOf<T, I>"%string) [])] 2%N ["Give a tip for something new; no finder's fee will be taken."%string; ""%string; "The dispatch origin for this call must be _Signed_ and the signing account must be a"%string; "member of the `Tippers` set."%string; ""%string; "- `reason`: The reason for, or the thing that deserves, the tip; generally this will be"%string; "  a UTF-8-encoded URL."%string; "- `who`: The account which should be credited for the tip."%string; "- `tip_value`: The amount of tip that the sender would like to give. The median tip"%string; "  value of active tippers will be given to the `who`."%string; ""%string; "Emits `NewTip` if successful."%string; ""%string; "## Complexity"%string; "- `O(R + T)` where `R` length of `reason`, `T` is the number of tippers."%string; "  - `O(T)`: decoding `Tipper` vec of length `T`. `T` is charged as upper bound given by"%string; "    `ContainsLengthBound`. The actual cost depends on the implementation of"%string; "    `T::Tippers`."%string; "  - `O(R)`: hashing and encoding of reason of length `R`"%string]); (Variant "tip"%string [(Field (Some "hash"%string) 12%N (Some "T::Hash"%string) []); (Field (Some "tip_value"%string) 83%N (Some "BalanceOf<T, I>"%string) [])] 3%N ["Declare a tip value for an already-open tip."%string; ""%string; "The dispatch origin for this call must be _Signed_ and the signing account must be a"%string; "member of the `Tippers` set."%string; ""%string; "- `hash`: The identity of the open tip for which a tip value is declared. This is formed"%string; "  as the hash of the tuple of the hash of the original tip `reason` and the beneficiary"%string; "  account ID."%string; "- `tip_value`: The amount of tip that the sender would like to give. The median tip"%string; "  value of active tippers will be given to the `who`."%string; ""%string; "Emits `TipClosing` if the threshold of tippers has been reached and the countdown period"%string; "has started."%string; ""%string; "## Complexity"%string; "- `O(T)` where `T` is the number of tippers. decoding `Tipper` vec of length `T`, insert"%string; "  tip and check closing, `T` is charged as upper bound given by `ContainsLengthBound`."%string; "  The actual cost depends on the implementation of `T::Tippers`."%string; ""%string; "  Actually weight could be lower as it depends on how many tips are in `OpenTip` but it"%string; "  is weighted as if almost full i.e of length `T-1`."%string]); (Variant "close_tip"%string [(Field (Some "hash"%string) 12%N (Some "T::Hash"%string) [])] 4%N ["Close and payout a tip."%string; ""%string; "The dispatch origin for this call must be _Signed_."%string; ""%string; "The tip identified by `hash` must have finished its countdown period."%string; ""%string; "- `hash`: The identity of the open tip for which a tip value is declared. This is formed"%string; "  as the hash of the tuple of the original tip `reason` and the beneficiary account ID."%string; ""%string; "## Complexity"%string; "- : `O(T)` where `T` is the number of tippers. decoding `Tipper` vec of length `T`. `T`"%string; "  is charged as upper bound given by `ContainsLengthBound`. The actual cost depends on"%string; "  the implementation of `T::Tippers`."%string]); (Variant "slash_tip"%string [(Field (Some "hash"%string) 12%N (Some "T::Hash"%string) [])] 5%N ["Remove and slash an already-open tip."%string; ""%string; "May only be called from `T::RejectOrigin`."%string; ""%string; "As a result, the finder is slashed and the deposits are lost."%string; ""%string; "Emits `TipSlashed` if successful."%string; ""%string; "## Complexity"%string; "- O(1)."%string])]) ["Contains one variant per dispatchable that can be called by an extrinsic."%string]).
Definition md_t246 : ty := (Ty ["pallet_preimage"%string; "pallet"%string; "Call"%string] [("T"%string,None)] (TVariant [(Variant "note_preimage"%string [(Field (Some "bytes"%string) 13%N (Some "Vec<u8>"%string) [])] 0%N ["Register a preimage on-chain."%string; ""%string; "If the preimage was previously requested, no fees or deposits are taken for providing"%string; "the preimage. Otherwise, a deposit is taken proportional to the size of the preimage."%string]); (Variant "unnote_preimage"%string [(Field (Some "hash"%string) 12%N (Some "T::Hash"%string) [])] 1%N ["Clear an unrequested preimage from the runtime storage."%string; ""%string; "If `len` is provided, then it will be a much cheaper operation."%string; ""%string; "- `hash`: The hash of the preimage to be removed from the store."%string; "- `len`: The length of the preimage of `hash`."%string]); (Variant "request_preimage"%string [(Field (Some "hash"%string) 12%N (Some "T::Hash"%string) [])] 2%N ["Request a preimage be uploaded to the chain without paying any fees or deposits."%string; ""%string; "If the preimage requests has already been provided on-chain, we unreserve any deposit"%string; "a user may have paid, and take the control of the preimage out of their hands."%string]); (Variant "unrequest_preimage"%string [(Field (Some "hash"%string) 12%N (Some "T::Hash"%string) [])] 3%N ["Clear a previously made request for a preimage."%string; ""%string; "NOTE: THIS MUST NOT BE CALLED ON `hash` MORE TIMES THAN `request_preimage`."%string])]) ["Contains one variant per dispatchable that can be called by an extrinsic."%string]).
Definition md_t247 : ty := (Ty ["orml_xtokens"%string; "module"%string; "Call"%string] [("T"%string,None)] (TVariant [(Variant "transfer"%string [(Field (Some "currency_id"%string) 248%N (Some "T::CurrencyId"%string) []); (Field (Some "amount"%string) 6%N (Some "T::Balance"%string) []); (Field (Some "dest"%string) 125%N (Some "Box<VersionedMultiLocation>"%string) []); (Field (Some "dest_weight_limit"%string) 179%N (Some "WeightLimit"%string) [])] 0%N ["Transfer native currencies."%string; ""%string; "`dest_weight_limit` is the weight for XCM execution on the dest"%string; "chain, and it would be charged from the transferred assets. If set"%string; "below requirements, the execution may fail and assets wouldn't be"%string; "received."%string; ""%string; "It's a no-op if any error on local XCM execution or message sending."%string; "Note sending assets out per se doesn't guarantee they would be"%string; "received. Receiving depends on if the XCM message could be delivered"%string; "by the network, and if the receiving chain would handle"%string; "messages correctly."%string]); (Variant "transfer_multiasset"%string [(Field (Some "asset"%string) 250%N (Some "Box<VersionedMultiAsset>"%string) []); (Field (Some "dest"%string) 125%N (Some "Box<VersionedMultiLocation>"%string) []); (Field (Some "dest_weight_limit"%string) 179%N (Some "WeightLimit"%string) [])] 1%N ["Transfer `MultiAsset`."%string; ""%string; "`dest_weight_limit` is the weight for XCM execution on the dest"%string; "chain, and it would be charged from the transferred assets. If set"%string; "below requirements, the execution may fail and assets wouldn't be"%string; "received."%string; ""%string; "It's a no-op if any error on local XCM execution or message sending."%string; "Note sending assets out per se doesn't guarantee they would be"%string; "received. Receiving depends on if the XCM message could be delivered"%string; "by the network, and if the receiving chain would handle"%string; "messages correctly."%string]); (Variant "transfer_with_fee"%string [(Field (Some "currency_id"%string) 248%N (Some "T::CurrencyId"%string) []); (Field (Some "amount"%string) 6%N (Some "T::Balance"%string) []); (Field (Some "fee"%string) 6%N (Some "T::Balance"%string) []); (Field (Some "dest"%string) 125%N (Some "Box<VersionedMultiLocation>"%string) []); (Field (Some "dest_weight_limit"%string) 179%N (Some "WeightLimit"%string) [])] 2%N ["Transfer native currencies specifying the fee and amount as"%string; "separate."%string; ""%string; "`dest_weight_limit` is the weight for XCM execution on the dest"%string; "chain, and it would be charged from the transferred assets. If set"%string; "below requirements, the execution may fail and assets wouldn't be"%string; "received."%string; ""%string; "`fee` is the amount to be spent to pay for execution in destination"%string; "chain. Both fee and amount will be subtracted form the callers"%string; "balance."%string; ""%string; "If `fee` is not high enough to cover for the execution costs in the"%string; "destination chain, then the assets will be trapped in the"%string; "destination chain"%string; ""%string; "It's a no-op if any error on local XCM execution or message sending."%string; "Note sending assets out per se doesn't guarantee they would be"%string; "received. Receiving depends on if the XCM message could be delivered"%string; "by the network, and if the receiving chain would handle"%string; "messages correctly."%string]); (Variant "transfer_multiasset_with_fee"%string [(Field (Some "asset"%string) 250%N (Some "Box<VersionedMultiAsset>"%string) []); (Field (Some "fee"%string) 250%N (Some "Box<VersionedMultiAsset>"%string) []); (Field (Some "dest"%string) 125%N (Some "Box<VersionedMultiLocation>"%string) []); (Field (Some "dest_weight_limit"%string) 179%N (Some "WeightLimit"%string) [])] 3%N ["Transfer `MultiAsset` specifying the fee and amount as separate."%string; ""%string; "`dest_weight_limit` is the weight for XCM execution on the dest"%string; "chain, and it would be charged from the transferred assets. If set"%string; "below requirements, the execution may fail and assets wouldn't be"%string; "received."%string; ""%string; "`fee` is the multiasset to be spent to pay for execution in"%string; "destination chain. Both fee and amount will be subtracted form the"%string; "callers balance For now we only accept fee and asset having the same"%string; "`MultiLocation` id."%string; ""%string; "If `fee` is not high enough to cover for the execution costs in the"%string; "destination chain, then the assets will be trapped in the"%string; "destination chain"%string; ""%string; "It's a no-op if any error on local XCM execution or message sending."%string; "Note sending assets out per se doesn't guarantee they would be"%string; "received. Receiving depends on if the XCM message could be delivered"%string; "by the network, and if the receiving chain would handle"%string; "messages correctly."%string]); (Variant "transfer_multicurrencies"%string [(Field (Some "currencies"%string) 251%N (Some "Vec<(T::CurrencyId, T::Balance)>"%string) []); (Field (Some "fee_item"%string) 4%N (Some "u32"%string) []); (Field (Some "dest"%string) 125%N (Some "Box<VersionedMultiLocation>"%string) []); (Field (Some "dest_weight_limit"%string) 179%N (Some "WeightLimit"%string) [])] 4%N ["Transfer several currencies specifying the item to be used as fee"%string; ""%string; "`dest_weight_limit` is the weight for XCM execution on the dest"%string; "chain, and it would be charged from the transferred assets. If set"%string; "below requirements, the execution may fail and assets wouldn't be"%string; "received."%string; ""%string; "`fee_item` is index of the currencies tuple that we want to use for"%string; "payment"%string; ""%string; "It's a no-op if any error on local XCM execution or message sending."%string; "Note sending assets out per se doesn't guarantee they would be"%string; "received. Receiving depends on if the XCM message could be delivered"%string; "by the network, and if the receiving chain would handle"%string; "messages correctly."%string]); (Variant "transfer_multiassets"%string [(Field (Some "assets"%string) 180%N (Some "Box<VersionedMultiAssets>"%string) []); (Field (Some "fee_item"%string) 4%N (Some "u32"%string) []); (Field (Some "dest"%string) 125%N (Some "Box<VersionedMultiLocation>"%string) []); (Field (Some "dest_weight_limit"%string) 179%N (Some "WeightLimit"%string) [])] 5%N ["Transfer several `MultiAsset` specifying the item to be used as fee"%string; ""%string; "`dest_weight_limit` is the weight for XCM execution on the dest"%string; "chain, and it would be charged from the transferred assets. If set"%string; "below requirements, the execution may fail and assets wouldn't be"%string; "received."%string; ""%string; "`fee_item` is index of the MultiAssets that we want to use for"%string; "payment"%string; ""%string; "It's a no-op if any error on local XCM execution or message sending."%string; "Note sending assets out per se doesn't guarantee they would be"%string; "received. Receiving depends on if the XCM message could be delivered"%string; "by the network, and if the receiving chain would handle"%string; "messages correctly."%string])]) ["Contains one variant per dispatchable that can be called by an extrinsic."%string]).
Definition md_t248 : ty := (Ty ["node_primitives"%string; "currency"%string; "CurrencyId"%string] [] (TVariant [(Variant "Native"%string [(Field None 249%N (Some "TokenSymbol"%string) [])] 0%N []); (Variant "VToken"%string [(Field None 249%N (Some "TokenSymbol"%string) [])] 1%N []); (Variant "Token"%string [(Field None 249%N (Some "TokenSymbol"%string) [])] 2%N []); (Variant "Stable"%string [(Field None 249%N (Some "TokenSymbol"%string) [])] 3%N []); (Variant "VSToken"%string [(Field None 249%N (Some "TokenSymbol"%string) [])] 4%N []); (Variant "VSBond"%string [(Field None 249%N (Some "TokenSymbol"%string) []); (Field None 4%N (Some "ParaId"%string) []); (Field None 4%N (Some "LeasePeriod"%string) []); (Field None 4%N (Some "LeasePeriod"%string) [])] 5%N []); (Variant "LPToken"%string [(Field None 249%N (Some "TokenSymbol"%string) []); (Field None 2%N (Some "u8"%string) []); (Field None 249%N (Some "TokenSymbol"%string) []); (Field None 2%N (Some "u8"%string) [])] 6%N []); (Variant "ForeignAsset"%string [(Field None 4%N (Some "ForeignAssetId"%string) [])] 7%N []); (Variant "Token2"%string [(Field None 2%N (Some "TokenId"%string) [])] 8%N []); (Variant "VToken2"%string [(Field None 2%N (Some "TokenId"%string) [])] 9%N []); (Variant "VSToken2"%string [(Field None 2%N (Some "TokenId"%string) [])] 10%N []); (Variant "VSBond2"%string [(Field None 2%N (Some "TokenId"%string) []); (Field None 4%N (Some "ParaId"%string) []); (Field None 4%N (Some "LeasePeriod"%string) []); (Field None 4%N (Some "LeasePeriod"%string) [])] 11%N []); (Variant "StableLpToken"%string [(Field None 4%N (Some "PoolId"%string) [])] 12%N []); (Variant "BLP"%string [(Field None 4%N (Some "PoolId"%string) [])] 13%N [])]) []).
Definition md_t249 : ty := (Ty ["node_primitives"%string; "currency"%string; "TokenSymbol"%string] [] (TVariant [(Variant "ASG"%string [] 0%N []); (Variant "BNC"%string [] 1%N []); (Variant "KUSD"%string [] 2%N []); (Variant "DOT"%string [] 3%N []); (Variant "KSM"%string [] 4%N []); (Variant "ETH"%string [] 5%N []); (Variant "KAR"%string [] 6%N []); (Variant "ZLK"%string [] 7%N []); (Variant "PHA"%string [] 8%N []); (Variant "RMRK"%string [] 9%N []); (Variant "MOVR"%string [] 10%N [])]) []).
Definition md_t250 : ty := (Ty ["xcm"%string; "VersionedMultiAsset"%string] [] (TVariant [(Variant "V2"%string [(Field None 139%N (Some "v2::MultiAsset"%string) [])] 1%N []); (Variant "V3"%string [(Field None 160%N (Some "v3::MultiAsset"%string) [])] 3%N [])]) []).
Definition md_t251 : ty := (Ty [] [] (TSequence 252%N) []).
Definition md_t252 : ty := (Ty [] [] (TTuple [248%N; 6%N]) []).
Definition md_t253 : ty := (Ty ["orml_tokens"%string; "module"%string; "Call"%string] [("T"%string,None)] (TVariant [(Variant "transfer"%string [(Field (Some "dest"%string) 65%N (Some "<T::Lookup as StaticLookup>::Source"%string) []); (Field (Some "currency_id"%string) 248%N (Some "T::CurrencyId"%string) []); (Field (Some "amount"%string) 83%N (Some "T::Balance"%string) [])] 0%N ["Transfer some liquid free balance to another account."%string; ""%string; "`transfer` will set the `FreeBalance` of the sender and receiver."%string; "It will decrease the total issuance of the system by the"%string; "`TransferFee`. If the sender's account is below the existential"%string; "deposit as a result of the transfer, the account will be reaped."%string; ""%string; "The dispatch origin for this call must be `Signed` by the"%string; "transactor."%string; ""%string; "- `dest`: The recipient of the transfer."%string; "- `currency_id`: currency type."%string; "- `amount`: free balance amount to tranfer."%string]); (Variant "transfer_all"%string [(Field (Some "dest"%string) 65%N (Some "<T::Lookup as StaticLookup>::Source"%string) []); (Field (Some "currency_id"%string) 248%N (Some "T::CurrencyId"%string) []); (Field (Some "keep_alive"%string) 45%N (Some "bool"%string) [])] 1%N ["Transfer all remaining balance to the given account."%string; ""%string; "NOTE: This function only attempts to transfer _transferable_"%string; "balances. This means that any locked, reserved, or existential"%string; "deposits (when `keep_alive` is `true`), will not be transferred by"%string; "this function. To ensure that this function results in a killed"%string; "account, you might need to prepare the account by removing any"%string; "reference counters, storage deposits, etc..."%string; ""%string; "The dispatch origin for this call must be `Signed` by the"%string; "transactor."%string; ""%string; "- `dest`: The recipient of the transfer."%string; "- `currency_id`: currency type."%string; "- `keep_alive`: A boolean to determine if the `transfer_all`"%string; "  operation should send all of the funds the account has, causing"%string; "  the sender account to be killed (false), or transfer everything"%string; "  except at least the existential deposit, which will guarantee to"%string; "  keep the sender account alive (true)."%string]); (Variant "transfer_keep_alive"%string [(Field (Some "dest"%string) 65%N (Some "<T::Lookup as StaticLookup>::Source"%string) []); (Field (Some "currency_id"%string) 248%N (Some "T::CurrencyId"%string) []); (Field (Some "amount"%string) 83%N (Some "T::Balance"%string) [])] 2%N ["Same as the [`transfer`] call, but with a check that the transfer"%string; "will not kill the origin account."%string; ""%string; "99% of the time you want [`transfer`] instead."%string; ""%string; "The dispatch origin for this call must be `Signed` by the"%string; "transactor."%string; ""%string; "- `dest`: The recipient of the transfer."%string; "- `currency_id`: currency type."%string; "- `amount`: free balance amount to tranfer."%string]); (Variant "force_transfer"%string [(Field (Some "source"%string) 65%N (Some "<T::Lookup as StaticLookup>::Source"%string) []); (Field (Some "dest"%string) 65%N (Some "<T::Lookup as StaticLookup>::Source"%string) []); (Field (Some "currency_id"%string) 248%N (Some "T::CurrencyId"%string) []); (Field (Some "amount"%string) 83%N (Some "T::Balance"%string) [])] 3%N ["Exactly as `transfer`, except the origin must be root and the source"%string; "account may be specified."%string; ""%string; "The dispatch origin for this call must be _Root_."%string; ""%string; "- `source`: The sender of the transfer."%string; "- `dest`: The recipient of the transfer."%string; "- `currency_id`: currency type."%string; "- `amount`: free balance amount to tranfer."%string]); (Variant "set_balance"%string [(Field (Some "who"%string) 65%N (Some "<T::Lookup as StaticLookup>::Source"%string) []); (Field (Some "currency_id"%string) 248%N (Some "T::CurrencyId"%string) []); (Field (Some "new_free"%string) 83%N (Some "T::Balance"%string) []); (Field (Some "new_reserved"%string) 83%N (Some "T::Balance"%string) [])] 4%N ["Set the balances of a given account."%string; ""%string; "This will alter `FreeBalance` and `ReservedBalance` in storage. it"%string; "will also decrease the total issuance of the system"%string; "(`TotalIssuance`). If the new free or reserved balance is below the"%string; "existential deposit, it will reap the `AccountInfo`."%string; ""%string; "The dispatch origin for this call is `root`."%string])]) ["Contains one variant per dispatchable that can be called by an extrinsic."%string]).
Definition md_t254 : ty := (Ty ["bifrost_currencies"%string; "module"%string; "Call"%string] [("T"%string,None)] (TVariant [(Variant "transfer"%string [(Field (Some "dest"%string) 65%N (Some "<T::Lookup as StaticLookup>::Source"%string) []); (Field (Some "currency_id"%string) 248%N (Some "CurrencyIdOf<T>"%string) []); (Field (Some "amount"%string) 83%N (Some "BalanceOf<T>"%string) [])] 0%N ["Transfer some balance to another account under `currency_id`."%string; ""%string; "The dispatch origin for this call must be `Signed` by the"%string; "transactor."%string]); (Variant "transfer_native_currency"%string [(Field (Some "dest"%string) 65%N (Some "<T::Lookup as StaticLookup>::Source"%string) []); (Field (Some "amount"%string) 83%N (Some "BalanceOf<T>"%string) [])] 1%N ["Transfer some native currency to another account."%string; ""%string; "The dispatch origin for this call must be `Signed` by the"%string; "transactor."%string]); (Variant "update_balance"%string [(Field (Some "who"%string) 65%N (Some "<T::Lookup as StaticLookup>::Source"%string) []); (Field (Some "currency_id"%string) 248%N (Some "CurrencyIdOf<T>"%string) []); (Field (Some "amount"%string) 255%N (Some "AmountOf<T>"%string) [])] 2%N ["update amount of account `who` under `currency_id`."%string; ""%string; "The dispatch origin of this call must be _Root_."%string])]) ["Contains one variant per dispatchable that can be called by an extrinsic."%string]).
Definition md_t255 : ty := (Ty [] [] (TPrimitive (PrI U128)) []).
Definition md_t256 : ty := (Ty ["orml_xcm"%string; "module"%string; "Call"%string] [("T"%string,None)] (TVariant [(Variant "send_as_sovereign"%string [(Field (Some "dest"%string) 125%N (Some "Box<VersionedMultiLocation>"%string) []); (Field (Some "message"%string) 133%N (Some "Box<VersionedXcm<()>>"%string) [])] 0%N ["Send an XCM message as parachain sovereign."%string])]) ["Contains one variant per dispatchable that can be called by an extrinsic."%string]).
Definition md_t257 : ty := (Ty ["zenlink_protocol"%string; "pallet"%string; "Call"%string] [("T"%string,None)] (TVariant [(Variant "set_fee_receiver"%string [(Field (Some "send_to"%string) 258%N (Some "Option<<T::Lookup as StaticLookup>::Source>"%string) [])] 0%N ["Set the new receiver of the protocol fee."%string; ""%string; "# Arguments"%string; ""%string; "- `send_to`:"%string; "(1) Some(receiver): it turn on the protocol fee and the new receiver account."%string; "(2) None: it turn off the protocol fee."%string]); (Variant "set_fee_point"%string [(Field (Some "fee_point"%string) 2%N (Some "u8"%string) [])] 1%N ["Set the protocol fee point."%string; ""%string; "# Arguments"%string; ""%string; "- `fee_point`:"%string; "0 means that all exchange fees belong to the liquidity provider."%string; "30 means that all exchange fees belong to the fee receiver."%string]); (Variant "transfer"%string [(Field (Some "asset_id"%string) 259%N (Some "T::AssetId"%string) []); (Field (Some "recipient"%string) 65%N (Some "<T::Lookup as StaticLookup>::Source"%string) []); (Field (Some "amount"%string) 83%N (Some "AssetBalance"%string) [])] 2%N ["Move some assets from one holder to another."%string; ""%string; "# Arguments"%string; ""%string; "- `asset_id`: The foreign id."%string; "- `target`: The receiver of the foreign."%string; "- `amount`: The amount of the foreign to transfer."%string]); (Variant "create_pair"%string [(Field (Some "asset_0"%string) 259%N (Some "T::AssetId"%string) []); (Field (Some "asset_1"%string) 259%N (Some "T::AssetId"%string) [])] 3%N ["Create pair by two assets."%string; ""%string; "The order of foreign dot effect result."%string; ""%string; "# Arguments"%string; ""%string; "- `asset_0`: Asset which make up Pair"%string; "- `asset_1`: Asset which make up Pair"%string]); (Variant "add_liquidity"%string [(Field (Some "asset_0"%string) 259%N (Some "T::AssetId"%string) []); (Field (Some "asset_1"%string) 259%N (Some "T::AssetId"%string) []); (Field (Some "amount_0_desired"%string) 83%N (Some "AssetBalance"%string) []); (Field (Some "amount_1_desired"%string) 83%N (Some "AssetBalance"%string) []); (Field (Some "amount_0_min"%string) 83%N (Some "AssetBalance"%string) []); (Field (Some "amount_1_min"%string) 83%N (Some "AssetBalance"%string) []); (Field (Some "deadline"%string) 66%N (Some "T::BlockNumber"%string) [])] 4%N ["Provide liquidity to a pair."%string; ""%string; "The order of foreign dot effect result."%string; ""%string; "# Arguments"%string; ""%string; "- `asset_0`: Asset which make up pair"%string; "- `asset_1`: Asset which make up pair"%string; "- `amount_0_desired`: Maximum amount of asset_0 added to the pair"%string; "- `amount_1_desired`: Maximum amount of asset_1 added to the pair"%string; "- `amount_0_min`: Minimum amount of asset_0 added to the pair"%string; "- `amount_1_min`: Minimum amount of asset_1 added to the pair"%string; "- `deadline`: Height of the cutoff block of this transaction"%string]); (Variant "remove_liquidity"%string [(Field (Some "asset_0"%string) 259%N (Some "T::AssetId"%string) []); (Field (Some "asset_1"%string) 259%N (Some "T::AssetId"%string) []); (Field (Some "liquidity"%string) 83%N (Some "AssetBalance"%string) []); (Field (Some "amount_0_min"%string) 83%N (Some "AssetBalance"%string) []); (Field (Some "amount_1_min"%string) 83%N (Some "AssetBalance"%string) []); (Field (Some "recipient"%string) 65%N (Some "<T::Lookup as StaticLookup>::Source"%string) []); (Field (Some "deadline"%string) 66%N (Some "T::BlockNumber"%string) [])] 5%N ["Extract liquidity."%string; ""%string; "The order of foreign dot effect result."%string; ""%string; "# Arguments"%string; ""%string; "- `asset_0`: Asset which make up pair"%string; "- `asset_1`: Asset which make up pair"%string; "- `amount_asset_0_min`: Minimum amount of asset_0 to exact"%string; "- `amount_asset_1_min`: Minimum amount of asset_1 to exact"%string; "- `recipient`: Account that accepts withdrawal of assets"%string; "- `deadline`: Height of the cutoff block of this transaction"%string]); (Variant "swap_exact_assets_for_assets"%string [(Field (Some "amount_in"%string) 83%N (Some "AssetBalance"%string) []); (Field (Some "amount_out_min"%string) 83%N (Some "AssetBalance"%string) []); (Field (Some "path"%string) 260%N (Some "Vec<T::AssetId>"%string) []); (Field (Some "recipient"%string) 65%N (Some "<T::Lookup as StaticLookup>::Source"%string) []); (Field (Some "deadline"%string) 66%N (Some "T::BlockNumber"%string) [])] 6%N ["Sell amount of foreign by path."%string; ""%string; "# Arguments"%string; ""%string; "- `amount_in`: Amount of the foreign will be sold"%string; "- `amount_out_min`: Minimum amount of target foreign"%string; "- `path`: path can convert to pairs."%string; "- `recipient`: Account that receive the target foreign"%string; "- `deadline`: Height of the cutoff block of this transaction"%string]); (Variant "swap_assets_for_exact_assets"%string [(Field (Some "amount_out"%string) 83%N (Some "AssetBalance"%string) []); (Field (Some "amount_in_max"%string) 83%N (Some "AssetBalance"%string) []); (Field (Some "path"%string) 260%N (Some "Vec<T::AssetId>"%string) []); (Field (Some "recipient"%string) 65%N (Some "<T::Lookup as StaticLookup>::Source"%string) []); (Field (Some "deadline"%string) 66%N (Some "T::BlockNumber"%string) [])] 7%N ["Buy amount of foreign by path."%string; ""%string; "# Arguments"%string; ""%string; "- `amount_out`: Amount of the foreign will be bought"%string; "- `amount_in_max`: Maximum amount of sold foreign"%string; "- `path`: path can convert to pairs."%string; "- `recipient`: Account that receive the target foreign"%string; "- `deadline`: Height of the cutoff block of this transaction"%string]); (Variant "bootstrap_create"%string [(Field (Some "asset_0"%string) 259%N (Some "T::AssetId"%string) []); (Field (Some "asset_1"%string) 259%N (Some "T::AssetId"%string) []); (Field (Some "target_supply_0"%string) 83%N (Some "AssetBalance"%string) []); (Field (Some "target_supply_1"%string) 83%N (Some "AssetBalance"%string) []); (Field (Some "capacity_supply_0"%string) 83%N (Some "AssetBalance"%string) []); (Field (Some "capacity_supply_1"%string) 83%N (Some "AssetBalance"%string) []); (Field (Some "end"%string) 66%N (Some "T::BlockNumber"%string) []); (Field (Some "rewards"%string) 260%N (Some "Vec<T::AssetId>"%string) []); (Field (Some "limits"%string) 261%N (Some "Vec<(T::AssetId, AssetBalance)>"%string) [])] 8%N ["Create bootstrap pair"%string; ""%string; "The order of asset don't affect result."%string; ""%string; "# Arguments"%string; ""%string; "- `asset_0`: Asset which make up bootstrap pair"%string; "- `asset_1`: Asset which make up bootstrap pair"%string; "- `target_supply_0`: Target amount of asset_0 total contribute"%string; "- `target_supply_0`: Target amount of asset_1 total contribute"%string; "- `capacity_supply_0`: The max amount of asset_0 total contribute"%string; "- `capacity_supply_1`: The max amount of asset_1 total contribute"%string; "- `end`: The earliest ending block."%string]); (Variant "bootstrap_contribute"%string [(Field (Some "asset_0"%string) 259%N (Some "T::AssetId"%string) []); (Field (Some "asset_1"%string) 259%N (Some "T::AssetId"%string) []); (Field (Some "amount_0_contribute"%string) 83%N (Some "AssetBalance"%string) []); (Field (Some "amount_1_contribute"%string) 83%N (Some "AssetBalance"%string) []); (Field (Some "deadline"%string) 66%N (Some "T::BlockNumber"%string) [])] 9%N ["Contribute some asset to a bootstrap pair"%string; ""%string; "# Arguments"%string; ""%string; "- `asset_0`: Asset which make up bootstrap pair"%string; "- `asset_1`: Asset which make up bootstrap pair"%string; "- `amount_0_contribute`: The amount of asset_0 contribute to this bootstrap pair"%string; "- `amount_1_contribute`: The amount of asset_1 contribute to this bootstrap pair"%string; "- `deadline`: Height of the cutoff block of this transaction"%string]); (Variant "bootstrap_claim"%string [(Field (Some "recipient"%string) 65%N (Some "<T::Lookup as StaticLookup>::Source"%string) []); (Field (Some "asset_0"%string) 259%N (Some "T::AssetId"%string) []); (Field (Some "asset_1"%string) 259%N (Some "T::AssetId"%string) []); (Field (Some "deadline"%string) 66%N (Some "T::BlockNumber"%string) [])] 10%N ["Claim lp asset from a bootstrap pair"%string; ""%string; "# Arguments"%string; ""%string; "- `asset_0`: Asset which make up bootstrap pair"%string; "- `asset_1`: Asset which make up bootstrap pair"%string; "- `deadline`: Height of the cutoff block of this transaction"%string]); (Variant "bootstrap_end"%string [(Field (Some "asset_0"%string) 259%N (Some "T::AssetId"%string) []); (Field (Some "asset_1"%string) 259%N (Some "T::AssetId"%string) [])] 11%N ["End a bootstrap pair"%string; ""%string; "# Arguments"%string; ""%string; "- `asset_0`: Asset which make up bootstrap pair"%string; "- `asset_1`: Asset which make up bootstrap pair"%string]); (Variant "bootstrap_update"%string [(Field (Some "asset_0"%string) 259%N (Some "T::AssetId"%string) []); (Field (Some "asset_1"%string) 259%N (Some "T::AssetId"%string) []); (Field (Some "target_supply_0"%string) 83%N (Some "AssetBalance"%string) []); (Field (Some "target_supply_1"%string) 83%N (Some "AssetBalance"%string) []); (Field (Some "capacity_supply_0"%string) 83%N (Some "AssetBalance"%string) []); (Field (Some "capacity_supply_1"%string) 83%N (Some "AssetBalance"%string) []); (Field (Some "end"%string) 66%N (Some "T::BlockNumber"%string) []); (Field (Some "rewards"%string) 260%N (Some "Vec<T::AssetId>"%string) []); (Field (Some "limits"%string) 261%N (Some "Vec<(T::AssetId, AssetBalance)>"%string) [])] 12%N ["update a bootstrap pair"%string; ""%string; "# Arguments"%string; ""%string; "- `asset_0`: Asset which make up bootstrap pair"%string; "- `asset_1`: Asset which make up bootstrap pair"%string; "- `min_contribution_0`: The new min amount of asset_0 contribute"%string; "- `min_contribution_0`: The new min amount of asset_1 contribute"%string; "- `target_supply_0`: The new target amount of asset_0 total contribute"%string; "- `target_supply_0`: The new target amount of asset_1 total contribute"%string; "- `capacity_supply_0`: The new max amount of asset_0 total contribute"%string; "- `capacity_supply_1`: The new max amount of asset_1 total contribute"%string; "- `end`: The earliest ending block."%string]); (Variant "bootstrap_refund"%string [(Field (Some "asset_0"%string) 259%N (Some "T::AssetId"%string) []); (Field (Some "asset_1"%string) 259%N (Some "T::AssetId"%string) [])] 13%N ["Contributor refund from disable bootstrap pair"%string; ""%string; "# Arguments"%string; ""%string; "- `asset_0`: Asset which make up bootstrap pair"%string; "- `asset_1`: Asset which make up bootstrap pair"%string]); (Variant "bootstrap_charge_reward"%string [(Field (Some "asset_0"%string) 259%N (Some "T::AssetId"%string) []); (Field (Some "asset_1"%string) 259%N (Some "T::AssetId"%string) []); (Field (Some "charge_rewards"%string) 261%N (Some "Vec<(T::AssetId, AssetBalance)>"%string) [])] 14%N []); (Variant "bootstrap_withdraw_reward"%string [(Field (Some "asset_0"%string) 259%N (Some "T::AssetId"%string) []); (Field (Some "asset_1"%string) 259%N (Some "T::AssetId"%string) []); (Field (Some "recipient"%string) 65%N (Some "<T::Lookup as StaticLookup>::Source"%string) [])] 15%N [])]) ["Contains one variant per dispatchable that can be called by an extrinsic."%string]).
Definition md_t258 : ty := (Ty ["Option"%string] [("T"%string,(Some 65%N))] (TVariant [(Variant "None"%string [] 0%N []); (Variant "Some"%string [(Field None 65%N None [])] 1%N [])]) []).
Definition md_t259 : ty := (Ty ["zenlink_protocol"%string; "primitives"%string; "AssetId"%string] [] (TComposite [(Field (Some "chain_id"%string) 4%N (Some "u32"%string) []); (Field (Some "asset_type"%string) 2%N (Some "u8"%string) []); (Field (Some "asset_index"%string) 11%N (Some "u64"%string) [])]) []).
Definition md_t260 : ty := (Ty [] [] (TSequence 259%N) []).
Definition md_t261 : ty := (Ty [] [] (TSequence 262%N) []).
Definition md_t262 : ty := (Ty [] [] (TTuple [259%N; 6%N]) []).
Definition md_t263 : ty := (Ty ["merkle_distributor"%string; "pallet"%string; "Call"%string] [("T"%string,None)] (TVariant [(Variant "add_to_create_whitelist"%string [(Field (Some "account"%string) 0%N (Some "AccountIdOf<T>"%string) [])] 0%N []); (Variant "remove_from_create_whitelist"%string [(Field (Some "account"%string) 0%N (Some "AccountIdOf<T>"%string) [])] 1%N []); (Variant "create_merkle_distributor"%string [(Field (Some "merkle_root"%string) 12%N (Some "H256"%string) []); (Field (Some "description"%string) 13%N (Some "Vec<u8>"%string) []); (Field (Some "distribute_currency"%string) 248%N (Some "T::CurrencyId"%string) []); (Field (Some "distribute_amount"%string) 6%N (Some "T::Balance"%string) [])] 2%N ["`create_merkle_distributor` will create a merkle distributor,"%string; " which allow specified users claim asset."%string; ""%string; "The dispatch origin for this call must be `Signed` by root."%string; ""%string; "- `merkle_root`: The root of a merkle tree."%string; "- `description`: About the purpose of this distribution."%string; "- `distribute_currency`: The id of currency about this distribution."%string; "- `distribute_amount`: The total currency amount of this distribution."%string]); (Variant "claim"%string [(Field (Some "merkle_distributor_id"%string) 4%N (Some "T::MerkleDistributorId"%string) []); (Field (Some "index"%string) 4%N (Some "u32"%string) []); (Field (Some "account"%string) 65%N (Some "<T::Lookup as StaticLookup>::Source"%string) []); (Field (Some "amount"%string) 6%N (Some "u128"%string) []); (Field (Some "merkle_proof"%string) 264%N (Some "Vec<H256>"%string) [])] 3%N ["`claim` Claim rewards through user information and merkle proof."%string; ""%string; "- `merkle_distributor_id`: ID of a merkle distributor."%string; "- `index`: The index of the merkle tree leaf."%string; "- `account`: The owner's account of merkle proof."%string; "- `merkle_proof`: The hashes with merkle tree leaf can get merkle tree root."%string]); (Variant "charge"%string [(Field (Some "merkle_distributor_id"%string) 4%N (Some "T::MerkleDistributorId"%string) [])] 4%N ["Charge currency to the account of merkle distributor"%string; ""%string; "`merkle_distributor_id`: ID of a merkle distributor."%string]); (Variant "emergency_withdraw"%string [(Field (Some "merkle_distributor_id"%string) 4%N (Some "T::MerkleDistributorId"%string) []); (Field (Some "recipient"%string) 65%N (Some "<T::Lookup as StaticLookup>::Source"%string) []); (Field (Some "amount"%string) 6%N (Some "T::Balance"%string) [])] 5%N [])]) ["Contains one variant per dispatchable that can be called by an extrinsic."%string]).
Definition md_t264 : ty := (Ty [] [] (TSequence 12%N) []).
Definition md_t265 : ty := (Ty ["bifrost_flexible_fee"%string; "pallet"%string; "Call"%string] [("T"%string,None)] (TVariant [(Variant "set_user_default_fee_currency"%string [(Field (Some "maybe_fee_currency"%string) 266%N (Some "Option<CurrencyIdOf<T>>"%string) [])] 0%N ["Set user default fee currency"%string]); (Variant "set_universal_fee_currency_order_list"%string [(Field (Some "default_list"%string) 267%N (Some "BoundedVec<CurrencyIdOf<T>, T::MaxFeeCurrencyOrderListLen>"%string) [])] 1%N ["Set universal fee currency order list"%string])]) ["Contains one variant per dispatchable that can be called by an extrinsic."%string]).
Definition md_t266 : ty := (Ty ["Option"%string] [("T"%string,(Some 248%N))] (TVariant [(Variant "None"%string [] 0%N []); (Variant "Some"%string [(Field None 248%N None [])] 1%N [])]) []).
Definition md_t267 : ty := (Ty ["bounded_collections"%string; "bounded_vec"%string; "BoundedVec"%string] [("T"%string,(Some 248%N)); ("S"%string,None)] (TComposite [(Field None 268%N (Some "Vec<T>"%string) [])]) []).
Definition md_t268 : ty := (Ty [] [] (TSequence 248%N) []).
Definition md_t269 : ty := (Ty ["bifrost_salp"%string; "pallet"%string; "Call"%string] [("T"%string,None)] (TVariant [(Variant "set_multisig_confirm_account"%string [(Field (Some "account"%string) 0%N (Some "AccountIdOf<T>"%string) [])] 0%N []); (Variant "fund_success"%string [(Field (Some "index"%string) 66%N (Some "ParaId"%string) [])] 1%N []); (Variant "fund_fail"%string [(Field (Some "index"%string) 66%N (Some "ParaId"%string) [])] 2%N []); (Variant "continue_fund"%string [(Field (Some "index"%string) 66%N (Some "ParaId"%string) []); (Field (Some "first_slot"%string) 66%N (Some "LeasePeriod"%string) []); (Field (Some "last_slot"%string) 66%N (Some "LeasePeriod"%string) [])] 3%N []); (Variant "fund_retire"%string [(Field (Some "index"%string) 66%N (Some "ParaId"%string) [])] 4%N []); (Variant "fund_end"%string [(Field (Some "index"%string) 66%N (Some "ParaId"%string) [])] 5%N []); (Variant "create"%string [(Field (Some "index"%string) 66%N (Some "ParaId"%string) []); (Field (Some "cap"%string) 83%N (Some "BalanceOf<T>"%string) []); (Field (Some "first_slot"%string) 66%N (Some "LeasePeriod"%string) []); (Field (Some "last_slot"%string) 66%N (Some "LeasePeriod"%string) [])] 6%N ["Create a new crowdloaning campaign for a parachain slot deposit for the current auction."%string]); (Variant "edit"%string [(Field (Some "index"%string) 66%N (Some "ParaId"%string) []); (Field (Some "cap"%string) 83%N (Some "BalanceOf<T>"%string) []); (Field (Some "raised"%string) 83%N (Some "BalanceOf<T>"%string) []); (Field (Some "first_slot"%string) 66%N (Some "LeasePeriod"%string) []); (Field (Some "last_slot"%string) 66%N (Some "LeasePeriod"%string) []); (Field (Some "fund_status"%string) 270%N (Some "Option<FundStatus>"%string) [])] 7%N ["Edit the configuration for an in-progress crowdloan."%string; ""%string; "Can only be called by Root origin."%string]); (Variant "contribute"%string [(Field (Some "index"%string) 66%N (Some "ParaId"%string) []); (Field (Some "value"%string) 83%N (Some "BalanceOf<T>"%string) [])] 8%N ["Contribute to a crowd sale. This will transfer some balance over to fund a parachain"%string; "slot. It will be withdrawable in two instances: the parachain becomes retired; or the"%string; "slot is unable to be purchased and the timeout expires."%string]); (Variant "confirm_contribute"%string [(Field (Some "query_id"%string) 11%N (Some "QueryId"%string) []); (Field (Some "is_success"%string) 45%N (Some "bool"%string) [])] 9%N ["Confirm contribute"%string]); (Variant "unlock"%string [(Field (Some "who"%string) 0%N (Some "AccountIdOf<T>"%string) []); (Field (Some "index"%string) 66%N (Some "ParaId"%string) [])] 10%N ["Unlock the reserved vsToken/vsBond after fund success"%string]); (Variant "unlock_by_vsbond"%string [(Field (Some "who"%string) 0%N (Some "AccountIdOf<T>"%string) []); (Field (Some "vsbond"%string) 248%N (Some "CurrencyId"%string) [])] 11%N []); (Variant "unlock_vstoken"%string [(Field (Some "who"%string) 0%N (Some "AccountIdOf<T>"%string) [])] 12%N []); (Variant "batch_unlock"%string [(Field (Some "index"%string) 66%N (Some "ParaId"%string) [])] 13%N ["Unlock the reserved vsToken/vsBond after fund success"%string]); (Variant "withdraw"%string [(Field (Some "index"%string) 66%N (Some "ParaId"%string) [])] 14%N ["Withdraw full balance of the parachain."%string; "- `index`: The parachain to whose crowdloan the contribution was made."%string]); (Variant "refund"%string [(Field (Some "index"%string) 66%N (Some "ParaId"%string) []); (Field (Some "first_slot"%string) 66%N (Some "LeasePeriod"%string) []); (Field (Some "last_slot"%string) 66%N (Some "LeasePeriod"%string) []); (Field (Some "value"%string) 83%N (Some "BalanceOf<T>"%string) [])] 15%N []); (Variant "redeem"%string [(Field (Some "index"%string) 66%N (Some "ParaId"%string) []); (Field (Some "value"%string) 83%N (Some "BalanceOf<T>"%string) [])] 16%N []); (Variant "dissolve_refunded"%string [(Field (Some "index"%string) 66%N (Some "ParaId"%string) []); (Field (Some "first_slot"%string) 66%N (Some "LeasePeriod"%string) []); (Field (Some "last_slot"%string) 66%N (Some "LeasePeriod"%string) [])] 17%N ["Remove a fund after the retirement period has ended and all funds have been returned."%string]); (Variant "dissolve"%string [(Field (Some "index"%string) 66%N (Some "ParaId"%string) [])] 18%N ["Remove a fund after the retirement period has ended and all funds have been returned."%string]); (Variant "buyback"%string [(Field (Some "value"%string) 83%N (Some "BalanceOf<T>"%string) [])] 19%N []); (Variant "confirm_contribution"%string [(Field (Some "query_id"%string) 11%N (Some "QueryId"%string) []); (Field (Some "response"%string) 164%N (Some "Response"%string) [])] 20%N []); (Variant "buyback_vstoken_by_stable_pool"%string [(Field (Some "pool_id"%string) 4%N (Some "StableAssetPoolId"%string) []); (Field (Some "currency_id_in"%string) 248%N (Some "CurrencyId"%string) []); (Field (Some "value"%string) 6%N (Some "BalanceOf<T>"%string) [])] 21%N [])]) ["Contains one variant per dispatchable that can be called by an extrinsic."%string]).
Definition md_t270 : ty := (Ty ["Option"%string] [("T"%string,(Some 271%N))] (TVariant [(Variant "None"%string [] 0%N []); (Variant "Some"%string [(Field None 271%N None [])] 1%N [])]) []).
Definition md_t271 : ty := (Ty ["bifrost_salp"%string; "FundStatus"%string] [] (TVariant [(Variant "Ongoing"%string [] 0%N []); (Variant "Retired"%string [] 1%N []); (Variant "Success"%string [] 2%N []); (Variant "Failed"%string [] 3%N []); (Variant "RefundWithdrew"%string [] 4%N []); (Variant "RedeemWithdrew"%string [] 5%N []); (Variant "FailedToContinue"%string [] 6%N []); (Variant "End"%string [] 7%N [])]) []).
Definition md_t272 : ty := (Ty ["bifrost_call_switchgear"%string; "pallet"%string; "Call"%string] [("T"%string,None)] (TVariant [(Variant "switchoff_transaction"%string [(Field (Some "pallet_name"%string) 13%N (Some "Vec<u8>"%string) []); (Field (Some "function_name"%string) 13%N (Some "Vec<u8>"%string) [])] 0%N []); (Variant "switchon_transaction"%string [(Field (Some "pallet_name"%string) 13%N (Some "Vec<u8>"%string) []); (Field (Some "function_name"%string) 13%N (Some "Vec<u8>"%string) [])] 1%N []); (Variant "disable_transfers"%string [(Field (Some "currency_id"%string) 248%N (Some "CurrencyId"%string) [])] 2%N []); (Variant "enable_transfers"%string [(Field (Some "currency_id"%string) 248%N (Some "CurrencyId"%string) [])] 3%N [])]) ["Contains one variant per dispatchable that can be called by an extrinsic."%string]).
Definition md_t273 : ty := (Ty ["bifrost_asset_registry"%string; "pallet"%string; "Call"%string] [("T"%string,None)] (TVariant [(Variant "register_native_asset"%string [(Field (Some "currency_id"%string) 248%N (Some "CurrencyId"%string) []); (Field (Some "location"%string) 125%N (Some "Box<VersionedMultiLocation>"%string) []); (Field (Some "metadata"%string) 274%N (Some "Box<AssetMetadata<BalanceOf<T>>>"%string) [])] 0%N []); (Variant "update_native_asset"%string [(Field (Some "currency_id"%string) 248%N (Some "CurrencyId"%string) []); (Field (Some "location"%string) 125%N (Some "Box<VersionedMultiLocation>"%string) []); (Field (Some "metadata"%string) 274%N (Some "Box<AssetMetadata<BalanceOf<T>>>"%string) [])] 1%N []); (Variant "register_token_metadata"%string [(Field (Some "metadata"%string) 274%N (Some "Box<AssetMetadata<BalanceOf<T>>>"%string) [])] 2%N []); (Variant "register_vtoken_metadata"%string [(Field (Some "token_id"%string) 2%N (Some "TokenId"%string) [])] 3%N []); (Variant "register_vstoken_metadata"%string [(Field (Some "token_id"%string) 2%N (Some "TokenId"%string) [])] 4%N []); (Variant "register_vsbond_metadata"%string [(Field (Some "token_id"%string) 2%N (Some "TokenId"%string) []); (Field (Some "para_id"%string) 4%N (Some "ParaId"%string) []); (Field (Some "first_slot"%string) 4%N (Some "LeasePeriod"%string) []); (Field (Some "last_slot"%string) 4%N (Some "LeasePeriod"%string) [])] 5%N []); (Variant "register_multilocation"%string [(Field (Some "currency_id"%string) 248%N (Some "CurrencyId"%string) []); (Field (Some "location"%string) 125%N (Some "Box<VersionedMultiLocation>"%string) []); (Field (Some "weight"%string) 9%N (Some "Weight"%string) [])] 6%N []); (Variant "force_set_multilocation"%string [(Field (Some "currency_id"%string) 248%N (Some "CurrencyId"%string) []); (Field (Some "location"%string) 125%N (Some "Box<VersionedMultiLocation>"%string) []); (Field (Some "weight"%string) 9%N (Some "Weight"%string) [])] 7%N [])]) ["Contains one variant per dispatchable that can be called by an extrinsic."%string]).
Definition md_t274 : ty := (Ty ["bifrost_asset_registry"%string; "pallet"%string; "AssetMetadata"%string] [("Balance"%string,(Some 6%N))] (TComposite [(Field (Some "name"%string) 13%N (Some "Vec<u8>"%string) []); (Field (Some "symbol"%string) 13%N (Some "Vec<u8>"%string) []); (Field (Some "decimals"%string) 2%N (Some "u8"%string) []); (Field (Some "minimal_balance"%string) 6%N (Some "Balance"%string) [])]) []).
Definition md_t275 : ty := (Ty ["bifrost_vtoken_minting"%string; "pallet"%string; "Call"%string] [("T"%string,None)] (TVariant [(Variant "mint"%string [(Field (Some "token_id"%string) 248%N (Some "CurrencyIdOf<T>"%string) []); (Field (Some "token_amount"%string) 6%N (Some "BalanceOf<T>"%string) []); (Field (Some "remark"%string) 276%N (Some "BoundedVec<u8, ConstU32<32>>"%string) [])] 0%N []); (Variant "redeem"%string [(Field (Some "vtoken_id"%string) 248%N (Some "CurrencyIdOf<T>"%string) []); (Field (Some "vtoken_amount"%string) 6%N (Some "BalanceOf<T>"%string) [])] 1%N []); (Variant "rebond"%string [(Field (Some "token_id"%string) 248%N (Some "CurrencyIdOf<T>"%string) []); (Field (Some "token_amount"%string) 6%N (Some "BalanceOf<T>"%string) [])] 2%N []); (Variant "rebond_by_unlock_id"%string [(Field (Some "token_id"%string) 248%N (Some "CurrencyIdOf<T>"%string) []); (Field (Some "unlock_id"%string) 4%N (Some "UnlockId"%string) [])] 3%N []); (Variant "set_unlock_duration"%string [(Field (Some "token_id"%string) 248%N (Some "CurrencyIdOf<T>"%string) []); (Field (Some "unlock_duration"%string) 277%N (Some "TimeUnit"%string) [])] 4%N []); (Variant "set_minimum_mint"%string [(Field (Some "token_id"%string) 248%N (Some "CurrencyIdOf<T>"%string) []); (Field (Some "amount"%string) 6%N (Some "BalanceOf<T>"%string) [])] 5%N []); (Variant "set_minimum_redeem"%string [(Field (Some "token_id"%string) 248%N (Some "CurrencyIdOf<T>"%string) []); (Field (Some "amount"%string) 6%N (Some "BalanceOf<T>"%string) [])] 6%N []); (Variant "add_support_rebond_token"%string [(Field (Some "token_id"%string) 248%N (Some "CurrencyIdOf<T>"%string) [])] 7%N []); (Variant "remove_support_rebond_token"%string [(Field (Some "token_id"%string) 248%N (Some "CurrencyIdOf<T>"%string) [])] 8%N []); (Variant "set_fees"%string [(Field (Some "mint_fee"%string) 278%N (Some "Permill"%string) []); (Field (Some "redeem_fee"%string) 278%N (Some "Permill"%string) [])] 9%N []); (Variant "set_hook_iteration_limit"%string [(Field (Some "limit"%string) 4%N (Some "u32"%string) [])] 10%N []); (Variant "set_unlocking_total"%string [(Field (Some "token_id"%string) 248%N (Some "CurrencyIdOf<T>"%string) []); (Field (Some "amount"%string) 6%N (Some "BalanceOf<T>"%string) [])] 11%N []); (Variant "set_min_time_unit"%string [(Field (Some "token_id"%string) 248%N (Some "CurrencyIdOf<T>"%string) []); (Field (Some "time_unit"%string) 277%N (Some "TimeUnit"%string) [])] 12%N [])]) ["Contains one variant per dispatchable that can be called by an extrinsic."%string]).
Definition md_t276 : ty := (Ty ["bounded_collections"%string; "bounded_vec"%string; "BoundedVec"%string] [("T"%string,(Some 2%N)); ("S"%string,None)] (TComposite [(Field None 13%N (Some "Vec<T>"%string) [])]) []).
Definition md_t277 : ty := (Ty ["node_primitives"%string; "TimeUnit"%string] [] (TVariant [(Variant "Era"%string [(Field None 66%N (Some "u32"%string) [])] 0%N []); (Variant "SlashingSpan"%string [(Field None 66%N (Some "u32"%string) [])] 1%N []); (Variant "Round"%string [(Field None 66%N (Some "u32"%string) [])] 2%N []); (Variant "Kblock"%string [(Field None 66%N (Some "u32"%string) [])] 3%N []); (Variant "Hour"%string [(Field None 66%N (Some "u32"%string) [])] 4%N [])]) []).
Definition md_t278 : ty := (Ty ["sp_arithmetic"%string; "per_things"%string; "Permill"%string] [] (TComposite [(Field None 4%N (Some "u32"%string) [])]) []).
Definition md_t279 : ty := (Ty ["bifrost_slp"%string; "pallet"%string; "Call"%string] [("T"%string,None)] (TVariant [(Variant "initialize_delegator"%string [(Field (Some "currency_id"%string) 248%N (Some "CurrencyId"%string) []); (Field (Some "delegator_location"%string) 280%N (Some "Option<Box<MultiLocation>>"%string) [])] 0%N ["*****************************"%string; "****** Outer Calls ******"%string; "*****************************"%string; ""%string; "Delegator initialization work. Generate a new delegator and return its ID."%string]); (Variant "bond"%string [(Field (Some "currency_id"%string) 248%N (Some "CurrencyId"%string) []); (Field (Some "who"%string) 112%N (Some "Box<MultiLocation>"%string) []); (Field (Some "amount"%string) 83%N (Some "BalanceOf<T>"%string) []); (Field (Some "validator"%string) 174%N (Some "Option<MultiLocation>"%string) [])] 1%N ["First time bonding some amount to a delegator."%string]); (Variant "bond_extra"%string [(Field (Some "currency_id"%string) 248%N (Some "CurrencyId"%string) []); (Field (Some "who"%string) 112%N (Some "Box<MultiLocation>"%string) []); (Field (Some "validator"%string) 174%N (Some "Option<MultiLocation>"%string) []); (Field (Some "amount"%string) 83%N (Some "BalanceOf<T>"%string) [])] 2%N ["Bond extra amount to a delegator."%string]); (Variant "unbond"%string [(Field (Some "currency_id"%string) 248%N (Some "CurrencyId"%string) []); (Field (Some "who"%string) 112%N (Some "Box<MultiLocation>"%string) []); (Field (Some "validator"%string) 174%N (Some "Option<MultiLocation>"%string) []); (Field (Some "amount"%string) 83%N (Some "BalanceOf<T>"%string) [])] 3%N ["Decrease some amount to a delegator. Leave no less than the minimum delegator"%string; "requirement."%string]); (Variant "unbond_all"%string [(Field (Some "currency_id"%string) 248%N (Some "CurrencyId"%string) []); (Field (Some "who"%string) 112%N (Some "Box<MultiLocation>"%string) [])] 4%N ["Unbond all the active amount of a delegator."%string]); (Variant "rebond"%string [(Field (Some "currency_id"%string) 248%N (Some "CurrencyId"%string) []); (Field (Some "who"%string) 112%N (Some "Box<MultiLocation>"%string) []); (Field (Some "validator"%string) 174%N (Some "Option<MultiLocation>"%string) []); (Field (Some "amount"%string) 281%N (Some "Option<BalanceOf<T>>"%string) [])] 5%N ["Rebond some unlocking amount to a delegator."%string]); (Variant "delegate"%string [(Field (Some "currency_id"%string) 248%N (Some "CurrencyId"%string) []); (Field (Some "who"%string) 112%N (Some "Box<MultiLocation>"%string) []); (Field (Some "targets"%string) 282%N (Some "Vec<MultiLocation>"%string) [])] 6%N ["Delegate to some validator set."%string]); (Variant "undelegate"%string [(Field (Some "currency_id"%string) 248%N (Some "CurrencyId"%string) []); (Field (Some "who"%string) 112%N (Some "Box<MultiLocation>"%string) []); (Field (Some "targets"%string) 282%N (Some "Vec<MultiLocation>"%string) [])] 7%N ["Re-delegate existing delegation to a new validator set."%string]); (Variant "redelegate"%string [(Field (Some "currency_id"%string) 248%N (Some "CurrencyId"%string) []); (Field (Some "who"%string) 112%N (Some "Box<MultiLocation>"%string) []); (Field (Some "targets"%string) 283%N (Some "Option<Vec<MultiLocation>>"%string) [])] 8%N ["Re-delegate existing delegation to a new validator set."%string]); (Variant "payout"%string [(Field (Some "currency_id"%string) 248%N (Some "CurrencyId"%string) []); (Field (Some "who"%string) 112%N (Some "Box<MultiLocation>"%string) []); (Field (Some "validator"%string) 112%N (Some "Box<MultiLocation>"%string) []); (Field (Some "when"%string) 284%N (Some "Option<TimeUnit>"%string) [])] 9%N ["Initiate payout for a certain delegator."%string]); (Variant "liquidize"%string [(Field (Some "currency_id"%string) 248%N (Some "CurrencyId"%string) []); (Field (Some "who"%string) 112%N (Some "Box<MultiLocation>"%string) []); (Field (Some "when"%string) 284%N (Some "Option<TimeUnit>"%string) []); (Field (Some "validator"%string) 174%N (Some "Option<MultiLocation>"%string) []); (Field (Some "amount"%string) 281%N (Some "Option<BalanceOf<T>>"%string) [])] 10%N ["Withdraw the due payout into free balance."%string]); (Variant "chill"%string [(Field (Some "currency_id"%string) 248%N (Some "CurrencyId"%string) []); (Field (Some "who"%string) 112%N (Some "Box<MultiLocation>"%string) [])] 11%N ["Initiate payout for a certain delegator."%string]); (Variant "transfer_back"%string [(Field (Some "currency_id"%string) 248%N (Some "CurrencyId"%string) []); (Field (Some "from"%string) 112%N (Some "Box<MultiLocation>"%string) []); (Field (Some "to"%string) 112%N (Some "Box<MultiLocation>"%string) []); (Field (Some "amount"%string) 83%N (Some "BalanceOf<T>"%string) [])] 12%N []); (Variant "transfer_to"%string [(Field (Some "currency_id"%string) 248%N (Some "CurrencyId"%string) []); (Field (Some "from"%string) 112%N (Some "Box<MultiLocation>"%string) []); (Field (Some "to"%string) 112%N (Some "Box<MultiLocation>"%string) []); (Field (Some "amount"%string) 83%N (Some "BalanceOf<T>"%string) [])] 13%N []); (Variant "convert_asset"%string [(Field (Some "currency_id"%string) 248%N (Some "CurrencyId"%string) []); (Field (Some "who"%string) 112%N (Some "Box<MultiLocation>"%string) []); (Field (Some "amount"%string) 83%N (Some "BalanceOf<T>"%string) []); (Field (Some "if_from_currency"%string) 45%N (Some "bool"%string) [])] 14%N []); (Variant "increase_token_pool"%string [(Field (Some "currency_id"%string) 248%N (Some "CurrencyId"%string) []); (Field (Some "amount"%string) 83%N (Some "BalanceOf<T>"%string) [])] 15%N []); (Variant "decrease_token_pool"%string [(Field (Some "currency_id"%string) 248%N (Some "CurrencyId"%string) []); (Field (Some "amount"%string) 83%N (Some "BalanceOf<T>"%string) [])] 16%N []); (Variant "update_ongoing_time_unit"%string [(Field (Some "currency_id"%string) 248%N (Some "CurrencyId"%string) []); (Field (Some "time_unit"%string) 277%N (Some "TimeUnit"%string) [])] 17%N []); (Variant "refund_currency_due_unbond"%string [(Field (Some "currency_id"%string) 248%N (Some "CurrencyId"%string) [])] 18%N []); (Variant "supplement_fee_reserve"%string [(Field (Some "currency_id"%string) 248%N (Some "CurrencyId"%string) []); (Field (Some "dest"%string) 112%N (Some "Box<MultiLocation>"%string) [])] 19%N []); (Variant "charge_host_fee_and_tune_vtoken_exchange_rate"%string [(Field (Some "currency_id"%string) 248%N (Some "CurrencyId"%string) []); (Field (Some "value"%string) 83%N (Some "BalanceOf<T>"%string) []); (Field (Some "who"%string) 174%N (Some "Option<MultiLocation>"%string) [])] 20%N ["Charge staking host fee, tune vtoken/token exchange rate, and update delegator ledger"%string; "for single delegator."%string]); (Variant "set_operate_origin"%string [(Field (Some "currency_id"%string) 248%N (Some "CurrencyId"%string) []); (Field (Some "who"%string) 94%N (Some "Option<AccountIdOf<T>>"%string) [])] 22%N ["*****************************"%string; "****** Storage Setters ******"%string; "*****************************"%string; "Update storage OperateOrigins<T>."%string]); (Variant "set_fee_source"%string [(Field (Some "currency_id"%string) 248%N (Some "CurrencyId"%string) []); (Field (Some "who_and_fee"%string) 285%N (Some "Option<(MultiLocation, BalanceOf<T>)>"%string) [])] 23%N ["Update storage FeeSources<T>."%string]); (Variant "add_delegator"%string [(Field (Some "currency_id"%string) 248%N (Some "CurrencyId"%string) []); (Field (Some "index"%string) 287%N (Some "u16"%string) []); (Field (Some "who"%string) 112%N (Some "Box<MultiLocation>"%string) [])] 24%N ["Update storage DelegatorsIndex2Multilocation<T> 和 DelegatorsMultilocation2Index<T>."%string]); (Variant "remove_delegator"%string [(Field (Some "currency_id"%string) 248%N (Some "CurrencyId"%string) []); (Field (Some "who"%string) 112%N (Some "Box<MultiLocation>"%string) [])] 25%N ["Update storage DelegatorsIndex2Multilocation<T> 和 DelegatorsMultilocation2Index<T>."%string]); (Variant "add_validator"%string [(Field (Some "currency_id"%string) 248%N (Some "CurrencyId"%string) []); (Field (Some "who"%string) 112%N (Some "Box<MultiLocation>"%string) [])] 26%N ["Update storage Validators<T>."%string]); (Variant "remove_validator"%string [(Field (Some "currency_id"%string) 248%N (Some "CurrencyId"%string) []); (Field (Some "who"%string) 112%N (Some "Box<MultiLocation>"%string) [])] 27%N ["Update storage Validators<T>."%string]); (Variant "set_validators_by_delegator"%string [(Field (Some "currency_id"%string) 248%N (Some "CurrencyId"%string) []); (Field (Some "who"%string) 112%N (Some "Box<MultiLocation>"%string) []); (Field (Some "validators"%string) 282%N (Some "Vec<MultiLocation>"%string) [])] 28%N ["Update storage ValidatorsByDelegator<T>."%string]); (Variant "set_delegator_ledger"%string [(Field (Some "currency_id"%string) 248%N (Some "CurrencyId"%string) []); (Field (Some "who"%string) 112%N (Some "Box<MultiLocation>"%string) []); (Field (Some "ledger"%string) 288%N (Some "Box<Option<Ledger<BalanceOf<T>>>>"%string) [])] 29%N ["Update storage DelegatorLedgers<T>."%string]); (Variant "set_minimums_and_maximums"%string [(Field (Some "currency_id"%string) 248%N (Some "CurrencyId"%string) []); (Field (Some "constraints"%string) 307%N (Some "Option<MinimumsMaximums<BalanceOf<T>>>"%string) [])] 30%N ["Update storage MinimumsAndMaximums<T>."%string]); (Variant "set_currency_delays"%string [(Field (Some "currency_id"%string) 248%N (Some "CurrencyId"%string) []); (Field (Some "maybe_delays"%string) 309%N (Some "Option<Delays>"%string) [])] 31%N ["Update storage Delays<T>."%string]); (Variant "set_hosting_fees"%string [(Field (Some "currency_id"%string) 248%N (Some "CurrencyId"%string) []); (Field (Some "maybe_fee_set"%string) 311%N (Some "Option<(Permill, MultiLocation)>"%string) [])] 32%N ["Set HostingFees storage."%string]); (Variant "set_currency_tune_exchange_rate_limit"%string [(Field (Some "currency_id"%string) 248%N (Some "CurrencyId"%string) []); (Field (Some "maybe_tune_exchange_rate_limit"%string) 313%N (Some "Option<(u32, Permill)>"%string) [])] 33%N ["Set  CurrencyTuneExchangeRateLimit<T> storage."%string]); (Variant "set_ongoing_time_unit_update_interval"%string [(Field (Some "currency_id"%string) 248%N (Some "CurrencyId"%string) []); (Field (Some "maybe_interval"%string) 91%N (Some "Option<BlockNumberFor<T>>"%string) [])] 34%N ["Set  OngoingTimeUnitUpdateInterval<T> storage."%string]); (Variant "add_supplement_fee_account_to_whitelist"%string [(Field (Some "currency_id"%string) 248%N (Some "CurrencyId"%string) []); (Field (Some "who"%string) 112%N (Some "Box<MultiLocation>"%string) [])] 35%N []); (Variant "remove_supplement_fee_account_from_whitelist"%string [(Field (Some "currency_id"%string) 248%N (Some "CurrencyId"%string) []); (Field (Some "who"%string) 112%N (Some "Box<MultiLocation>"%string) [])] 36%N []); (Variant "confirm_delegator_ledger_query_response"%string [(Field (Some "currency_id"%string) 248%N (Some "CurrencyId"%string) []); (Field (Some "query_id"%string) 10%N (Some "QueryId"%string) [])] 37%N ["********************************************************************"%string; "*************Outer Confirming Xcm queries functions ****************"%string; "********************************************************************"%string]); (Variant "fail_delegator_ledger_query_response"%string [(Field (Some "currency_id"%string) 248%N (Some "CurrencyId"%string) []); (Field (Some "query_id"%string) 10%N (Some "QueryId"%string) [])] 38%N []); (Variant "confirm_validators_by_delegator_query_response"%string [(Field (Some "currency_id"%string) 248%N (Some "CurrencyId"%string) []); (Field (Some "query_id"%string) 10%N (Some "QueryId"%string) [])] 39%N []); (Variant "fail_validators_by_delegator_query_response"%string [(Field (Some "currency_id"%string) 248%N (Some "CurrencyId"%string) []); (Field (Some "query_id"%string) 10%N (Some "QueryId"%string) [])] 40%N []); (Variant "confirm_delegator_ledger"%string [(Field (Some "query_id"%string) 11%N (Some "QueryId"%string) []); (Field (Some "response"%string) 164%N (Some "Response"%string) [])] 41%N []); (Variant "confirm_validators_by_delegator"%string [(Field (Some "query_id"%string) 11%N (Some "QueryId"%string) []); (Field (Some "response"%string) 164%N (Some "Response"%string) [])] 42%N []); (Variant "reset_validators"%string [(Field (Some "currency_id"%string) 248%N (Some "CurrencyId"%string) []); (Field (Some "validator_list"%string) 282%N (Some "Vec<MultiLocation>"%string) [])] 43%N ["Reset the whole storage Validators<T>."%string]); (Variant "set_validator_boost_list"%string [(Field (Some "currency_id"%string) 248%N (Some "CurrencyId"%string) []); (Field (Some "validator_list"%string) 282%N (Some "Vec<MultiLocation>"%string) [])] 44%N ["Reset the whole storage Validator_boost_list<T>."%string]); (Variant "add_to_validator_boost_list"%string [(Field (Some "currency_id"%string) 248%N (Some "CurrencyId"%string) []); (Field (Some "who"%string) 112%N (Some "Box<MultiLocation>"%string) [])] 45%N []); (Variant "remove_from_validator_boot_list"%string [(Field (Some "currency_id"%string) 248%N (Some "CurrencyId"%string) []); (Field (Some "who"%string) 112%N (Some "Box<MultiLocation>"%string) [])] 46%N ["Update storage Validator_boost_list<T>."%string])]) ["Contains one variant per dispatchable that can be called by an extrinsic."%string]).
Definition md_t280 : ty := (Ty ["Option"%string] [("T"%string,(Some 112%N))] (TVariant [(Variant "None"%string [] 0%N []); (Variant "Some"%string [(Field None 112%N None [])] 1%N [])]) []).
Definition md_t281 : ty := (Ty ["Option"%string] [("T"%string,(Some 6%N))] (TVariant [(Variant "None"%string [] 0%N []); (Variant "Some"%string [(Field None 6%N None [])] 1%N [])]) []).
Definition md_t282 : ty := (Ty [] [] (TSequence 112%N) []).
Definition md_t283 : ty := (Ty ["Option"%string] [("T"%string,(Some 282%N))] (TVariant [(Variant "None"%string [] 0%N []); (Variant "Some"%string [(Field None 282%N None [])] 1%N [])]) []).
Definition md_t284 : ty := (Ty ["Option"%string] [("T"%string,(Some 277%N))] (TVariant [(Variant "None"%string [] 0%N []); (Variant "Some"%string [(Field None 277%N None [])] 1%N [])]) []).
Definition md_t285 : ty := (Ty ["Option"%string] [("T"%string,(Some 286%N))] (TVariant [(Variant "None"%string [] 0%N []); (Variant "Some"%string [(Field None 286%N None [])] 1%N [])]) []).
Definition md_t286 : ty := (Ty [] [] (TTuple [112%N; 6%N]) []).
Definition md_t287 : ty := (Ty [] [] (TCompact 56%N) []).
Definition md_t288 : ty := (Ty ["Option"%string] [("T"%string,(Some 289%N))] (TVariant [(Variant "None"%string [] 0%N []); (Variant "Some"%string [(Field None 289%N None [])] 1%N [])]) []).
Definition md_t289 : ty := (Ty ["bifrost_slp"%string; "primitives"%string; "Ledger"%string] [("Balance"%string,(Some 6%N))] (TVariant [(Variant "Substrate"%string [(Field None 290%N (Some "SubstrateLedger<Balance>"%string) [])] 0%N []); (Variant "Moonbeam"%string [(Field None 293%N (Some "OneToManyLedger<Balance>"%string) [])] 1%N []); (Variant "ParachainStaking"%string [(Field None 293%N (Some "OneToManyLedger<Balance>"%string) [])] 2%N []); (Variant "Filecoin"%string [(Field None 304%N (Some "FilecoinLedger<Balance>"%string) [])] 3%N []); (Variant "Phala"%string [(Field None 305%N (Some "PhalaLedger<Balance>"%string) [])] 4%N [])]) []).
Definition md_t290 : ty := (Ty ["bifrost_slp"%string; "primitives"%string; "polkadot_primitives"%string; "SubstrateLedger"%string] [("Balance"%string,(Some 6%N))] (TComposite [(Field (Some "account"%string) 112%N (Some "MultiLocation"%string) []); (Field (Some "total"%string) 83%N (Some "Balance"%string) []); (Field (Some "active"%string) 83%N (Some "Balance"%string) []); (Field (Some "unlocking"%string) 291%N (Some "Vec<UnlockChunk<Balance>>"%string) [])]) []).
Definition md_t291 : ty := (Ty [] [] (TSequence 292%N) []).
Definition md_t292 : ty := (Ty ["bifrost_slp"%string; "primitives"%string; "polkadot_primitives"%string; "UnlockChunk"%string] [("Balance"%string,(Some 6%N))] (TComposite [(Field (Some "value"%string) 83%N (Some "Balance"%string) []); (Field (Some "unlock_time"%string) 277%N (Some "TimeUnit"%string) [])]) []).
Definition md_t293 : ty := (Ty ["bifrost_slp"%string; "primitives"%string; "moonbeam_primitives"%string; "OneToManyLedger"%string] [("Balance"%string,(Some 6%N))] (TComposite [(Field (Some "account"%string) 112%N (Some "MultiLocation"%string) []); (Field (Some "delegations"%string) 294%N (Some "BTreeMap<MultiLocation, Balance>"%string) []); (Field (Some "total"%string) 6%N (Some "Balance"%string) []); (Field (Some "less_total"%string) 6%N (Some "Balance"%string) []); (Field (Some "requests"%string) 296%N (Some "Vec<OneToManyScheduledRequest<Balance>>"%string) []); (Field (Some "request_briefs"%string) 299%N (Some "BTreeMap<MultiLocation, (TimeUnit, Balance)>"%string) []); (Field (Some "status"%string) 303%N (Some "OneToManyDelegatorStatus"%string) [])]) []).
Definition md_t294 : ty := (Ty ["BTreeMap"%string] [("K"%string,(Some 112%N)); ("V"%string,(Some 6%N))] (TComposite [(Field None 295%N None [])]) []).
Definition md_t295 : ty := (Ty [] [] (TSequence 286%N) []).
Definition md_t296 : ty := (Ty [] [] (TSequence 297%N) []).
Definition md_t297 : ty := (Ty ["bifrost_slp"%string; "primitives"%string; "moonbeam_primitives"%string; "OneToManyScheduledRequest"%string] [("Balance"%string,(Some 6%N))] (TComposite [(Field (Some "validator"%string) 112%N (Some "MultiLocation"%string) []); (Field (Some "when_executable"%string) 277%N (Some "TimeUnit"%string) []); (Field (Some "action"%string) 298%N (Some "OneToManyDelegationAction<Balance>"%string) [])]) []).
Definition md_t298 : ty := (Ty ["bifrost_slp"%string; "primitives"%string; "moonbeam_primitives"%string; "OneToManyDelegationAction"%string] [("Balance"%string,(Some 6%N))] (TVariant [(Variant "Revoke"%string [(Field None 6%N (Some "Balance"%string) [])] 0%N []); (Variant "Decrease"%string [(Field None 6%N (Some "Balance"%string) [])] 1%N [])]) []).
Definition md_t299 : ty := (Ty ["BTreeMap"%string] [("K"%string,(Some 112%N)); ("V"%string,(Some 300%N))] (TComposite [(Field None 301%N None [])]) []).
Definition md_t300 : ty := (Ty [] [] (TTuple [277%N; 6%N]) []).
Definition md_t301 : ty := (Ty [] [] (TSequence 302%N) []).
Definition md_t302 : ty := (Ty [] [] (TTuple [112%N; 300%N]) []).
Definition md_t303 : ty := (Ty ["bifrost_slp"%string; "primitives"%string; "moonbeam_primitives"%string; "OneToManyDelegatorStatus"%string] [] (TVariant [(Variant "Active"%string [] 0%N []); (Variant "Leaving"%string [(Field None 277%N (Some "TimeUnit"%string) [])] 1%N [])]) []).
Definition md_t304 : ty := (Ty ["bifrost_slp"%string; "primitives"%string; "filecoin_primitives"%string; "FilecoinLedger"%string] [("Balance"%string,(Some 6%N))] (TComposite [(Field (Some "account"%string) 112%N (Some "MultiLocation"%string) []); (Field (Some "initial_pledge"%string) 83%N (Some "Balance"%string) [])]) []).
Definition md_t305 : ty := (Ty ["bifrost_slp"%string; "primitives"%string; "phala_primitives"%string; "PhalaLedger"%string] [("Balance"%string,(Some 6%N))] (TComposite [(Field (Some "account"%string) 112%N (Some "MultiLocation"%string) []); (Field (Some "active_shares"%string) 83%N (Some "Balance"%string) []); (Field (Some "unlocking_shares"%string) 83%N (Some "Balance"%string) []); (Field (Some "unlocking_time_unit"%string) 284%N (Some "Option<TimeUnit>"%string) []); (Field (Some "bonded_pool_id"%string) 306%N (Some "Option<u64>"%string) []); (Field (Some "bonded_pool_collection_id"%string) 91%N (Some "Option<u32>"%string) [])]) []).
Definition md_t306 : ty := (Ty ["Option"%string] [("T"%string,(Some 11%N))] (TVariant [(Variant "None"%string [] 0%N []); (Variant "Some"%string [(Field None 11%N None [])] 1%N [])]) []).
Definition md_t307 : ty := (Ty ["Option"%string] [("T"%string,(Some 308%N))] (TVariant [(Variant "None"%string [] 0%N []); (Variant "Some"%string [(Field None 308%N None [])] 1%N [])]) []).
Definition md_t308 : ty := (Ty ["bifrost_slp"%string; "primitives"%string; "MinimumsMaximums"%string] [("Balance"%string,(Some 6%N))] (TComposite [(Field (Some "delegator_bonded_minimum"%string) 83%N (Some "Balance"%string) []); (Field (Some "bond_extra_minimum"%string) 83%N (Some "Balance"%string) []); (Field (Some "unbond_minimum"%string) 83%N (Some "Balance"%string) []); (Field (Some "rebond_minimum"%string) 83%N (Some "Balance"%string) []); (Field (Some "unbond_record_maximum"%string) 66%N (Some "u32"%string) []); (Field (Some "validators_back_maximum"%string) 66%N (Some "u32"%string) []); (Field (Some "delegator_active_staking_maximum"%string) 83%N (Some "Balance"%string) []); (Field (Some "validators_reward_maximum"%string) 66%N (Some "u32"%string) []); (Field (Some "delegation_amount_minimum"%string) 83%N (Some "Balance"%string) []); (Field (Some "delegators_maximum"%string) 287%N (Some "u16"%string) []); (Field (Some "validators_maximum"%string) 287%N (Some "u16"%string) [])]) []).
Definition md_t309 : ty := (Ty ["Option"%string] [("T"%string,(Some 310%N))] (TVariant [(Variant "None"%string [] 0%N []); (Variant "Some"%string [(Field None 310%N None [])] 1%N [])]) []).
Definition md_t310 : ty := (Ty ["bifrost_slp"%string; "primitives"%string; "Delays"%string] [] (TComposite [(Field (Some "unlock_delay"%string) 277%N (Some "TimeUnit"%string) []); (Field (Some "leave_delegators_delay"%string) 277%N (Some "TimeUnit"%string) [])]) []).
Definition md_t311 : ty := (Ty ["Option"%string] [("T"%string,(Some 312%N))] (TVariant [(Variant "None"%string [] 0%N []); (Variant "Some"%string [(Field None 312%N None [])] 1%N [])]) []).
Definition md_t312 : ty := (Ty [] [] (TTuple [278%N; 112%N]) []).
Definition md_t313 : ty := (Ty ["Option"%string] [("T"%string,(Some 314%N))] (TVariant [(Variant "None"%string [] 0%N []); (Variant "Some"%string [(Field None 314%N None [])] 1%N [])]) []).
Definition md_t314 : ty := (Ty [] [] (TTuple [4%N; 278%N]) []).
Definition md_t315 : ty := (Ty ["xcm_interface"%string; "pallet"%string; "Call"%string] [("T"%string,None)] (TVariant [(Variant "update_xcm_dest_weight_and_fee"%string [(Field (Some "updates"%string) 316%N (Some "Vec<(CurrencyIdOf<T>, XcmOperationType, Weight, BalanceOf<T>)>"%string) [])] 0%N ["Sets the xcm_dest_weight and fee for XCM operation of XcmInterface."%string; ""%string; "Parameters:"%string; "- `updates`: vec of tuple: (XcmOperationType, WeightChange, FeeChange)."%string]); (Variant "transfer_statemine_assets"%string [(Field (Some "amount"%string) 6%N (Some "BalanceOf<T>"%string) []); (Field (Some "asset_id"%string) 4%N (Some "u32"%string) []); (Field (Some "dest"%string) 94%N (Some "Option<AccountIdOf<T>>"%string) [])] 1%N [])]) ["Contains one variant per dispatchable that can be called by an extrinsic."%string]).
Definition md_t316 : ty := (Ty [] [] (TSequence 317%N) []).
Definition md_t317 : ty := (Ty [] [] (TTuple [248%N; 318%N; 9%N; 6%N]) []).
Definition md_t318 : ty := (Ty ["node_primitives"%string; "XcmOperationType"%string] [] (TVariant [(Variant "UmpContributeTransact"%string [] 0%N []); (Variant "StatemineTransfer"%string [] 1%N []); (Variant "Bond"%string [] 2%N []); (Variant "WithdrawUnbonded"%string [] 3%N []); (Variant "BondExtra"%string [] 4%N []); (Variant "Unbond"%string [] 5%N []); (Variant "Rebond"%string [] 6%N []); (Variant "Delegate"%string [] 7%N []); (Variant "Payout"%string [] 8%N []); (Variant "Liquidize"%string [] 9%N []); (Variant "TransferBack"%string [] 10%N []); (Variant "TransferTo"%string [] 11%N []); (Variant "Chill"%string [] 12%N []); (Variant "Undelegate"%string [] 13%N []); (Variant "CancelLeave"%string [] 14%N []); (Variant "XtokensTransferBack"%string [] 15%N []); (Variant "ExecuteLeave"%string [] 16%N []); (Variant "ConvertAsset"%string [] 17%N []); (Variant "Vote"%string [] 18%N []); (Variant "RemoveVote"%string [] 19%N []); (Variant "Any"%string [] 20%N [])]) []).
Definition md_t319 : ty := (Ty ["bifrost_vstoken_conversion"%string; "pallet"%string; "Call"%string] [("T"%string,None)] (TVariant [(Variant "vsbond_convert_to_vstoken"%string [(Field (Some "vs_bond_currency_id"%string) 248%N (Some "CurrencyIdOf<T>"%string) []); (Field (Some "vsbond_amount"%string) 6%N (Some "BalanceOf<T>"%string) []); (Field (Some "minimum_vstoken"%string) 6%N (Some "BalanceOf<T>"%string) [])] 0%N []); (Variant "vstoken_convert_to_vsbond"%string [(Field (Some "currency_id"%string) 248%N (Some "CurrencyIdOf<T>"%string) []); (Field (Some "vstoken_amount"%string) 6%N (Some "BalanceOf<T>"%string) []); (Field (Some "minimum_vsbond"%string) 6%N (Some "BalanceOf<T>"%string) [])] 1%N []); (Variant "set_exchange_fee"%string [(Field (Some "exchange_fee"%string) 320%N (Some "VstokenConversionExchangeFee<BalanceOf<T>>"%string) [])] 2%N []); (Variant "set_exchange_rate"%string [(Field (Some "lease"%string) 321%N (Some "i32"%string) []); (Field (Some "exchange_rate"%string) 322%N (Some "VstokenConversionExchangeRate"%string) [])] 3%N []); (Variant "set_relaychain_lease"%string [(Field (Some "lease"%string) 4%N (Some "u32"%string) [])] 4%N [])]) ["Contains one variant per dispatchable that can be called by an extrinsic."%string]).
Definition md_t320 : ty := (Ty ["bifrost_vstoken_conversion"%string; "primitives"%string; "VstokenConversionExchangeFee"%string] [("Balance"%string,(Some 6%N))] (TComposite [(Field (Some "vstoken_exchange_fee"%string) 6%N (Some "Balance"%string) []); (Field (Some "vsbond_exchange_fee_of_vstoken"%string) 6%N (Some "Balance"%string) [])]) []).
Definition md_t321 : ty := (Ty [] [] (TPrimitive (PrI U32)) []).
Definition md_t322 : ty := (Ty ["bifrost_vstoken_conversion"%string; "primitives"%string; "VstokenConversionExchangeRate"%string] [] (TComposite [(Field (Some "vsbond_convert_to_vstoken"%string) 323%N (Some "Percent"%string) []); (Field (Some "vstoken_convert_to_vsbond"%string) 323%N (Some "Percent"%string) [])]) []).
Definition md_t323 : ty := (Ty ["sp_arithmetic"%string; "per_things"%string; "Percent"%string] [] (TComposite [(Field None 2%N (Some "u8"%string) [])]) []).
Definition md_t324 : ty := (Ty ["bifrost_farming"%string; "pallet"%string; "Call"%string] [("T"%string,None)] (TVariant [(Variant "create_farming_pool"%string [(Field (Some "tokens_proportion"%string) 325%N (Some "Vec<(CurrencyIdOf<T>, Perbill)>"%string) []); (Field (Some "basic_rewards"%string) 251%N (Some "Vec<(CurrencyIdOf<T>, BalanceOf<T>)>"%string) []); (Field (Some "gauge_init"%string) 328%N (Some "Option<
(CurrencyIdOf<T>, BlockNumberFor<T>, Vec<
(CurrencyIdOf<T>, BalanceOf<T>)>,)>"%string) []); (Field (Some "min_deposit_to_start"%string) 6%N (Some "BalanceOf<T>"%string) []); (Field (Some "after_block_to_start"%string) 66%N (Some "BlockNumberFor<T>"%string) []); (Field (Some "withdraw_limit_time"%string) 66%N (Some "BlockNumberFor<T>"%string) []); (Field (Some "claim_limit_time"%string) 66%N (Some "BlockNumberFor<T>"%string) []); (Field (Some "withdraw_limit_count"%string) 2%N (Some "u8"%string) [])] 0%N []); (Variant "charge"%string [(Field (Some "pid"%string) 4%N (Some "PoolId"%string) []); (Field (Some "rewards"%string) 251%N (Some "Vec<(CurrencyIdOf<T>, BalanceOf<T>)>"%string) [])] 1%N []); (Variant "deposit"%string [(Field (Some "pid"%string) 4%N (Some "PoolId"%string) []); (Field (Some "add_value"%string) 6%N (Some "BalanceOf<T>"%string) []); (Field (Some "gauge_info"%string) 330%N (Some "Option<(BalanceOf<T>, BlockNumberFor<T>)>"%string) [])] 2%N []); (Variant "withdraw"%string [(Field (Some "pid"%string) 4%N (Some "PoolId"%string) []); (Field (Some "remove_value"%string) 281%N (Some "Option<BalanceOf<T>>"%string) [])] 3%N []); (Variant "claim"%string [(Field (Some "pid"%string) 4%N (Some "PoolId"%string) [])] 4%N []); (Variant "withdraw_claim"%string [(Field (Some "pid"%string) 4%N (Some "PoolId"%string) [])] 5%N []); (Variant "force_retire_pool"%string [(Field (Some "pid"%string) 4%N (Some "PoolId"%string) [])] 6%N []); (Variant "set_retire_limit"%string [(Field (Some "limit"%string) 4%N (Some "u32"%string) [])] 7%N []); (Variant "close_pool"%string [(Field (Some "pid"%string) 4%N (Some "PoolId"%string) [])] 8%N []); (Variant "reset_pool"%string [(Field (Some "pid"%string) 4%N (Some "PoolId"%string) []); (Field (Some "basic_rewards"%string) 332%N (Some "Option<Vec<(CurrencyIdOf<T>, BalanceOf<T>)>>"%string) []); (Field (Some "min_deposit_to_start"%string) 281%N (Some "Option<BalanceOf<T>>"%string) []); (Field (Some "after_block_to_start"%string) 91%N (Some "Option<BlockNumberFor<T>>"%string) []); (Field (Some "withdraw_limit_time"%string) 91%N (Some "Option<BlockNumberFor<T>>"%string) []); (Field (Some "claim_limit_time"%string) 91%N (Some "Option<BlockNumberFor<T>>"%string) []); (Field (Some "withdraw_limit_count"%string) 333%N (Some "Option<u8>"%string) []); (Field (Some "gauge_init"%string) 328%N (Some "Option<
(CurrencyIdOf<T>, BlockNumberFor<T>, Vec<
(CurrencyIdOf<T>, BalanceOf<T>)>,)>"%string) [])] 9%N []); (Variant "kill_pool"%string [(Field (Some "pid"%string) 4%N (Some "PoolId"%string) [])] 10%N []); (Variant "edit_pool"%string [(Field (Some "pid"%string) 4%N (Some "PoolId"%string) []); (Field (Some "basic_rewards"%string) 332%N (Some "Option<Vec<(CurrencyIdOf<T>, BalanceOf<T>)>>"%string) []); (Field (Some "withdraw_limit_time"%string) 91%N (Some "Option<BlockNumberFor<T>>"%string) []); (Field (Some "claim_limit_time"%string) 91%N (Some "Option<BlockNumberFor<T>>"%string) []); (Field (Some "gauge_basic_rewards"%string) 332%N (Some "Option<Vec<(CurrencyIdOf<T>, BalanceOf<T>)>>"%string) []); (Field (Some "withdraw_limit_count"%string) 333%N (Some "Option<u8>"%string) [])] 11%N []); (Variant "gauge_withdraw"%string [(Field (Some "gid"%string) 4%N (Some "PoolId"%string) [])] 12%N []); (Variant "force_gauge_claim"%string [(Field (Some "gid"%string) 4%N (Some "PoolId"%string) [])] 13%N []); (Variant "add_boost_pool_whitelist"%string [(Field (Some "whitelist"%string) 334%N (Some "Vec<PoolId>"%string) [])] 14%N []); (Variant "set_next_round_whitelist"%string [(Field (Some "whitelist"%string) 334%N (Some "Vec<PoolId>"%string) [])] 15%N []); (Variant "vote"%string [(Field (Some "vote_list"%string) 335%N (Some "Vec<(PoolId, Percent)>"%string) [])] 16%N []); (Variant "start_boost_round"%string [(Field (Some "round_length"%string) 4%N (Some "BlockNumberFor<T>"%string) [])] 17%N []); (Variant "end_boost_round"%string [] 18%N []); (Variant "charge_boost"%string [(Field (Some "rewards"%string) 251%N (Some "Vec<(CurrencyIdOf<T>, BalanceOf<T>)>"%string) [])] 19%N [])]) ["Contains one variant per dispatchable that can be called by an extrinsic."%string]).
Definition md_t325 : ty := (Ty [] [] (TSequence 326%N) []).
Definition md_t326 : ty := (Ty [] [] (TTuple [248%N; 327%N]) []).
Definition md_t327 : ty := (Ty ["sp_arithmetic"%string; "per_things"%string; "Perbill"%string] [] (TComposite [(Field None 4%N (Some "u32"%string) [])]) []).
Definition md_t328 : ty := (Ty ["Option"%string] [("T"%string,(Some 329%N))] (TVariant [(Variant "None"%string [] 0%N []); (Variant "Some"%string [(Field None 329%N None [])] 1%N [])]) []).
Definition md_t329 : ty := (Ty [] [] (TTuple [248%N; 4%N; 251%N]) []).
Definition md_t330 : ty := (Ty ["Option"%string] [("T"%string,(Some 331%N))] (TVariant [(Variant "None"%string [] 0%N []); (Variant "Some"%string [(Field None 331%N None [])] 1%N [])]) []).
Definition md_t331 : ty := (Ty [] [] (TTuple [6%N; 4%N]) []).
Definition md_t332 : ty := (Ty ["Option"%string] [("T"%string,(Some 251%N))] (TVariant [(Variant "None"%string [] 0%N []); (Variant "Some"%string [(Field None 251%N None [])] 1%N [])]) []).
Definition md_t333 : ty := (Ty ["Option"%string] [("T"%string,(Some 2%N))] (TVariant [(Variant "None"%string [] 0%N []); (Variant "Some"%string [(Field None 2%N None [])] 1%N [])]) []).
Definition md_t334 : ty := (Ty [] [] (TSequence 4%N) []).
Definition md_t335 : ty := (Ty [] [] (TSequence 336%N) []).
Definition md_t336 : ty := (Ty [] [] (TTuple [4%N; 323%N]) []).
Definition md_t337 : ty := (Ty ["bifrost_system_staking"%string; "pallet"%string; "Call"%string] [("T"%string,None)] (TVariant [(Variant "token_config"%string [(Field (Some "token"%string) 248%N (Some "CurrencyIdOf<T>"%string) []); (Field (Some "exec_delay"%string) 91%N (Some "Option<u32>"%string) []); (Field (Some "system_stakable_farming_rate"%string) 338%N (Some "Option<Permill>"%string) []); (Field (Some "add_or_sub"%string) 339%N (Some "Option<bool>"%string) []); (Field (Some "system_stakable_base"%string) 281%N (Some "Option<BalanceOf<T>>"%string) []); (Field (Some "farming_poolids"%string) 340%N (Some "Option<Vec<PoolId>>"%string) []); (Field (Some "lptoken_rates"%string) 341%N (Some "Option<Vec<Perbill>>"%string) [])] 0%N ["Update token config，take effect when next round begins"%string]); (Variant "delete_token"%string [(Field (Some "token"%string) 248%N (Some "CurrencyIdOf<T>"%string) [])] 1%N ["Update token config，take effect when next round begins"%string]); (Variant "refresh_token_info"%string [(Field (Some "token"%string) 248%N (Some "CurrencyIdOf<T>"%string) [])] 2%N ["refresh token info，query farming pallet, and update TokenInfo, change to new"%string; "config，ignore exec_delay, execute immediately"%string]); (Variant "payout"%string [(Field (Some "token"%string) 248%N (Some "CurrencyIdOf<T>"%string) [])] 3%N ["payout to treasury"%string])]) ["Contains one variant per dispatchable that can be called by an extrinsic."%string]).
Definition md_t338 : ty := (Ty ["Option"%string] [("T"%string,(Some 278%N))] (TVariant [(Variant "None"%string [] 0%N []); (Variant "Some"%string [(Field None 278%N None [])] 1%N [])]) []).
Definition md_t339 : ty := (Ty ["Option"%string] [("T"%string,(Some 45%N))] (TVariant [(Variant "None"%string [] 0%N []); (Variant "Some"%string [(Field None 45%N None [])] 1%N [])]) []).
Definition md_t340 : ty := (Ty ["Option"%string] [("T"%string,(Some 334%N))] (TVariant [(Variant "None"%string [] 0%N []); (Variant "Some"%string [(Field None 334%N None [])] 1%N [])]) []).
Definition md_t341 : ty := (Ty ["Option"%string] [("T"%string,(Some 342%N))] (TVariant [(Variant "None"%string [] 0%N []); (Variant "Some"%string [(Field None 342%N None [])] 1%N [])]) []).
Definition md_t342 : ty := (Ty [] [] (TSequence 327%N) []).
Definition md_t343 : ty := (Ty ["bifrost_system_maker"%string; "pallet"%string; "Call"%string] [("T"%string,None)] (TVariant [(Variant "set_config"%string [(Field (Some "currency_id"%string) 248%N (Some "CurrencyIdOf<T>"%string) []); (Field (Some "info"%string) 344%N (Some "Info<BalanceOf<T>>"%string) [])] 0%N []); (Variant "charge"%string [(Field (Some "currency_id"%string) 248%N (Some "CurrencyIdOf<T>"%string) []); (Field (Some "value"%string) 6%N (Some "BalanceOf<T>"%string) [])] 1%N []); (Variant "close"%string [(Field (Some "currency_id"%string) 248%N (Some "CurrencyIdOf<T>"%string) [])] 2%N []); (Variant "payout"%string [(Field (Some "currency_id"%string) 248%N (Some "CurrencyIdOf<T>"%string) []); (Field (Some "value"%string) 6%N (Some "BalanceOf<T>"%string) [])] 3%N [])]) ["Contains one variant per dispatchable that can be called by an extrinsic."%string]).
Definition md_t344 : ty := (Ty ["bifrost_system_maker"%string; "pallet"%string; "Info"%string] [("BalanceOf"%string,(Some 6%N))] (TComposite [(Field (Some "vcurrency_id"%string) 248%N (Some "CurrencyId"%string) []); (Field (Some "annualization"%string) 4%N (Some "u32"%string) []); (Field (Some "granularity"%string) 6%N (Some "BalanceOf"%string) []); (Field (Some "minimum_redeem"%string) 6%N (Some "BalanceOf"%string) [])]) []).
Definition md_t345 : ty := (Ty ["bifrost_fee_share"%string; "pallet"%string; "Call"%string] [("T"%string,None)] (TVariant [(Variant "create_distribution"%string [(Field (Some "token_type"%string) 268%N (Some "Vec<CurrencyId>"%string) []); (Field (Some "tokens_proportion"%string) 346%N (Some "Vec<(AccountIdOf<T>, Perbill)>"%string) []); (Field (Some "if_auto"%string) 45%N (Some "bool"%string) [])] 0%N []); (Variant "edit_distribution"%string [(Field (Some "distribution_id"%string) 4%N (Some "DistributionId"%string) []); (Field (Some "token_type"%string) 348%N (Some "Option<Vec<CurrencyId>>"%string) []); (Field (Some "tokens_proportion"%string) 349%N (Some "Option<Vec<(AccountIdOf<T>, Perbill)>>"%string) []); (Field (Some "if_auto"%string) 339%N (Some "Option<bool>"%string) [])] 1%N []); (Variant "set_era_length"%string [(Field (Some "era_length"%string) 4%N (Some "BlockNumberFor<T>"%string) [])] 2%N []); (Variant "execute_distribute"%string [(Field (Some "distribution_id"%string) 4%N (Some "DistributionId"%string) [])] 3%N []); (Variant "delete_distribution"%string [(Field (Some "distribution_id"%string) 4%N (Some "DistributionId"%string) [])] 4%N [])]) ["Contains one variant per dispatchable that can be called by an extrinsic."%string]).
Definition md_t346 : ty := (Ty [] [] (TSequence 347%N) []).
Definition md_t347 : ty := (Ty [] [] (TTuple [0%N; 327%N]) []).
Definition md_t348 : ty := (Ty ["Option"%string] [("T"%string,(Some 268%N))] (TVariant [(Variant "None"%string [] 0%N []); (Variant "Some"%string [(Field None 268%N None [])] 1%N [])]) []).
Definition md_t349 : ty := (Ty ["Option"%string] [("T"%string,(Some 346%N))] (TVariant [(Variant "None"%string [] 0%N []); (Variant "Some"%string [(Field None 346%N None [])] 1%N [])]) []).
Definition md_t350 : ty := (Ty ["bifrost_cross_in_out"%string; "pallet"%string; "Call"%string] [("T"%string,None)] (TVariant [(Variant "cross_in"%string [(Field (Some "location"%string) 126%N (Some "Box<MultiLocation>"%string) []); (Field (Some "currency_id"%string) 248%N (Some "CurrencyId"%string) []); (Field (Some "amount"%string) 83%N (Some "BalanceOf<T>"%string) []); (Field (Some "remark"%string) 351%N (Some "Option<Vec<u8>>"%string) [])] 0%N []); (Variant "cross_out"%string [(Field (Some "currency_id"%string) 248%N (Some "CurrencyId"%string) []); (Field (Some "amount"%string) 83%N (Some "BalanceOf<T>"%string) [])] 1%N ["Destroy some balance from an account and issue cross-out event."%string]); (Variant "register_linked_account"%string [(Field (Some "currency_id"%string) 248%N (Some "CurrencyId"%string) []); (Field (Some "who"%string) 0%N (Some "AccountIdOf<T>"%string) []); (Field (Some "foreign_location"%string) 126%N (Some "Box<MultiLocation>"%string) [])] 2%N []); (Variant "change_outer_linked_account"%string [(Field (Some "currency_id"%string) 248%N (Some "CurrencyId"%string) []); (Field (Some "foreign_location"%string) 126%N (Some "Box<MultiLocation>"%string) []); (Field (Some "account"%string) 0%N (Some "AccountIdOf<T>"%string) [])] 3%N []); (Variant "register_currency_for_cross_in_out"%string [(Field (Some "currency_id"%string) 248%N (Some "CurrencyId"%string) [])] 4%N []); (Variant "deregister_currency_for_cross_in_out"%string [(Field (Some "currency_id"%string) 248%N (Some "CurrencyId"%string) [])] 5%N []); (Variant "add_to_issue_whitelist"%string [(Field (Some "currency_id"%string) 248%N (Some "CurrencyId"%string) []); (Field (Some "account"%string) 0%N (Some "AccountIdOf<T>"%string) [])] 6%N []); (Variant "remove_from_issue_whitelist"%string [(Field (Some "currency_id"%string) 248%N (Some "CurrencyId"%string) []); (Field (Some "account"%string) 0%N (Some "AccountIdOf<T>"%string) [])] 7%N []); (Variant "add_to_register_whitelist"%string [(Field (Some "currency_id"%string) 248%N (Some "CurrencyId"%string) []); (Field (Some "account"%string) 0%N (Some "AccountIdOf<T>"%string) [])] 8%N []); (Variant "remove_from_register_whitelist"%string [(Field (Some "currency_id"%string) 248%N (Some "CurrencyId"%string) []); (Field (Some "account"%string) 0%N (Some "AccountIdOf<T>"%string) [])] 9%N []); (Variant "set_crossing_minimum_amount"%string [(Field (Some "currency_id"%string) 248%N (Some "CurrencyId"%string) []); (Field (Some "cross_in_minimum"%string) 6%N (Some "BalanceOf<T>"%string) []); (Field (Some "cross_out_minimum"%string) 6%N (Some "BalanceOf<T>"%string) [])] 10%N [])]) ["Contains one variant per dispatchable that can be called by an extrinsic."%string]).
Definition md_t351 : ty := (Ty ["Option"%string] [("T"%string,(Some 13%N))] (TVariant [(Variant "None"%string [] 0%N []); (Variant "Some"%string [(Field None 13%N None [])] 1%N [])]) []).
Definition md_t352 : ty := (Ty ["bifrost_ve_minting"%string; "pallet"%string; "Call"%string] [("T"%string,None)] (TVariant [(Variant "set_config"%string [(Field (Some "min_mint"%string) 281%N (Some "Option<BalanceOf<T>>"%string) []); (Field (Some "min_block"%string) 91%N (Some "Option<T::BlockNumber>"%string) [])] 0%N []); (Variant "create_lock"%string [(Field (Some "value"%string) 6%N (Some "BalanceOf<T>"%string) []); (Field (Some "unlock_time"%string) 4%N (Some "T::BlockNumber"%string) [])] 1%N []); (Variant "increase_amount"%string [(Field (Some "value"%string) 6%N (Some "BalanceOf<T>"%string) [])] 2%N []); (Variant "increase_unlock_time"%string [(Field (Some "time"%string) 4%N (Some "T::BlockNumber"%string) [])] 3%N []); (Variant "withdraw"%string [] 4%N []); (Variant "notify_rewards"%string [(Field (Some "incentive_from"%string) 0%N (Some "AccountIdOf<T>"%string) []); (Field (Some "rewards_duration"%string) 91%N (Some "Option<T::BlockNumber>"%string) []); (Field (Some "rewards"%string) 251%N (Some "Vec<(CurrencyIdOf<T>, BalanceOf<T>)>"%string) [])] 5%N []); (Variant "get_rewards"%string [] 6%N [])]) ["Contains one variant per dispatchable that can be called by an extrinsic."%string]).
Definition md_t353 : ty := (Ty ["bifrost_slpx"%string; "pallet"%string; "Call"%string] [("T"%string,None)] (TVariant [(Variant "mint"%string [(Field (Some "evm_caller"%string) 354%N (Some "H160"%string) []); (Field (Some "currency_id"%string) 248%N (Some "CurrencyIdOf<T>"%string) []); (Field (Some "target_chain"%string) 355%N (Some "TargetChain<AccountIdOf<T>>"%string) []); (Field (Some "remark"%string) 276%N (Some "BoundedVec<u8, ConstU32<32>>"%string) [])] 0%N ["vtoken mint and transfer to target chain"%string]); (Variant "zenlink_swap"%string [(Field (Some "evm_caller"%string) 354%N (Some "H160"%string) []); (Field (Some "currency_id_in"%string) 248%N (Some "CurrencyIdOf<T>"%string) []); (Field (Some "currency_id_out"%string) 248%N (Some "CurrencyIdOf<T>"%string) []); (Field (Some "currency_id_out_min"%string) 6%N (Some "AssetBalance"%string) []); (Field (Some "target_chain"%string) 355%N (Some "TargetChain<AccountIdOf<T>>"%string) [])] 1%N ["Swap and transfer to target chain"%string]); (Variant "redeem"%string [(Field (Some "evm_caller"%string) 354%N (Some "H160"%string) []); (Field (Some "vtoken_id"%string) 248%N (Some "CurrencyIdOf<T>"%string) []); (Field (Some "target_chain"%string) 355%N (Some "TargetChain<AccountIdOf<T>>"%string) [])] 2%N ["Redeem"%string]); (Variant "stable_pool_swap"%string [(Field (Some "evm_caller"%string) 354%N (Some "H160"%string) []); (Field (Some "pool_id"%string) 4%N (Some "StableAssetPoolId"%string) []); (Field (Some "currency_id_in"%string) 248%N (Some "CurrencyIdOf<T>"%string) []); (Field (Some "currency_id_out"%string) 248%N (Some "CurrencyIdOf<T>"%string) []); (Field (Some "min_dy"%string) 6%N (Some "BalanceOf<T>"%string) []); (Field (Some "target_chain"%string) 355%N (Some "TargetChain<AccountIdOf<T>>"%string) [])] 3%N ["Stable pool swap"%string]); (Variant "add_whitelist"%string [(Field (Some "support_chain"%string) 356%N (Some "SupportChain"%string) []); (Field (Some "evm_contract_account_id"%string) 0%N (Some "T::AccountId"%string) [])] 4%N []); (Variant "remove_whitelist"%string [(Field (Some "support_chain"%string) 356%N (Some "SupportChain"%string) []); (Field (Some "evm_contract_account_id"%string) 0%N (Some "T::AccountId"%string) [])] 5%N []); (Variant "set_execution_fee"%string [(Field (Some "currency_id"%string) 248%N (Some "CurrencyId"%string) []); (Field (Some "execution_fee"%string) 6%N (Some "BalanceOf<T>"%string) [])] 6%N []); (Variant "set_transfer_to_fee"%string [(Field (Some "support_chain"%string) 356%N (Some "SupportChain"%string) []); (Field (Some "transfer_to_fee"%string) 6%N (Some "BalanceOf<T>"%string) [])] 7%N [])]) ["Contains one variant per dispatchable that can be called by an extrinsic."%string]).
Definition md_t354 : ty := (Ty ["primitive_types"%string; "H160"%string] [] (TComposite [(Field None 67%N (Some "[u8; 20]"%string) [])]) []).
Definition md_t355 : ty := (Ty ["bifrost_slpx"%string; "TargetChain"%string] [("AccountId"%string,(Some 0%N))] (TVariant [(Variant "Astar"%string [(Field None 354%N (Some "H160"%string) [])] 0%N []); (Variant "Moonbeam"%string [(Field None 354%N (Some "H160"%string) [])] 1%N []); (Variant "Hydradx"%string [(Field None 0%N (Some "AccountId"%string) [])] 2%N [])]) []).
Definition md_t356 : ty := (Ty ["bifrost_slpx"%string; "SupportChain"%string] [] (TVariant [(Variant "Astar"%string [] 0%N []); (Variant "Moonbeam"%string [] 1%N []); (Variant "Hydradx"%string [] 2%N [])]) []).
Definition md_t357 : ty := (Ty ["pallet_ranked_collective"%string; "pallet"%string; "Call"%string] [("T"%string,None); ("I"%string,None)] (TVariant [(Variant "add_member"%string [(Field (Some "who"%string) 65%N (Some "AccountIdLookupOf<T>"%string) [])] 0%N ["Introduce a new member."%string; ""%string; "- `origin`: Must be the `AdminOrigin`."%string; "- `who`: Account of non-member which will become a member."%string; "- `rank`: The rank to give the new member."%string; ""%string; "Weight: `O(1)`"%string]); (Variant "promote_member"%string [(Field (Some "who"%string) 65%N (Some "AccountIdLookupOf<T>"%string) [])] 1%N ["Increment the rank of an existing member by one."%string; ""%string; "- `origin`: Must be the `AdminOrigin`."%string; "- `who`: Account of existing member."%string; ""%string; "Weight: `O(1)`"%string]); (Variant "demote_member"%string [(Field (Some "who"%string) 65%N (Some "AccountIdLookupOf<T>"%string) [])] 2%N ["Decrement the rank of an existing member by one. If the member is already at rank zero,"%string; "then they are removed entirely."%string; ""%string; "- `origin`: Must be the `AdminOrigin`."%string; "- `who`: Account of existing member of rank greater than zero."%string; ""%string; "Weight: `O(1)`, less if the member's index is highest in its rank."%string]); (Variant "remove_member"%string [(Field (Some "who"%string) 65%N (Some "AccountIdLookupOf<T>"%string) []); (Field (Some "min_rank"%string) 56%N (Some "Rank"%string) [])] 3%N ["Remove the member entirely."%string; ""%string; "- `origin`: Must be the `AdminOrigin`."%string; "- `who`: Account of existing member of rank greater than zero."%string; "- `min_rank`: The rank of the member or greater."%string; ""%string; "Weight: `O(min_rank)`."%string]); (Variant "vote"%string [(Field (Some "poll"%string) 4%N (Some "PollIndexOf<T, I>"%string) []); (Field (Some "aye"%string) 45%N (Some "bool"%string) [])] 4%N ["Add an aye or nay vote for the sender to the given proposal."%string; ""%string; "- `origin`: Must be `Signed` by a member account."%string; "- `poll`: Index of a poll which is ongoing."%string; "- `aye`: `true` if the vote is to approve the proposal, `false` otherwise."%string; ""%string; "Transaction fees are be waived if the member is voting on any particular proposal"%string; "for the first time and the call is successful. Subsequent vote changes will charge a"%string; "fee."%string; ""%string; "Weight: `O(1)`, less if there was no previous vote on the poll by the member."%string]); (Variant "cleanup_poll"%string [(Field (Some "poll_index"%string) 4%N (Some "PollIndexOf<T, I>"%string) []); (Field (Some "max"%string) 4%N (Some "u32"%string) [])] 5%N ["Remove votes from the given poll. It must have ended."%string; ""%string; "- `origin`: Must be `Signed` by any account."%string; "- `poll_index`: Index of a poll which is completed and for which votes continue to"%string; "  exist."%string; "- `max`: Maximum number of vote items from remove in this call."%string; ""%string; "Transaction fees are waived if the operation is successful."%string; ""%string; "Weight `O(max)` (less if there are fewer items to remove than `max`)."%string])]) ["Contains one variant per dispatchable that can be called by an extrinsic."%string]).
Definition md_t358 : ty := (Ty ["pallet_referenda"%string; "pallet"%string; "Call"%string] [("T"%string,None); ("I"%string,None)] (TVariant [(Variant "submit"%string [(Field (Some "proposal_origin"%string) 106%N (Some "Box<PalletsOriginOf<T>>"%string) []); (Field (Some "proposal"%string) 57%N (Some "BoundedCallOf<T, I>"%string) []); (Field (Some "enactment_moment"%string) 121%N (Some "DispatchTime<T::BlockNumber>"%string) [])] 0%N ["Propose a referendum on a privileged action."%string; ""%string; "- `origin`: must be `SubmitOrigin` and the account must have `SubmissionDeposit` funds"%string; "  available."%string; "- `proposal_origin`: The origin from which the proposal should be executed."%string; "- `proposal`: The proposal."%string; "- `enactment_moment`: The moment that the proposal should be enacted."%string; ""%string; "Emits `Submitted`."%string]); (Variant "place_decision_deposit"%string [(Field (Some "index"%string) 4%N (Some "ReferendumIndex"%string) [])] 1%N ["Post the Decision Deposit for a referendum."%string; ""%string; "- `origin`: must be `Signed` and the account must have funds available for the"%string; "  referendum's track's Decision Deposit."%string; "- `index`: The index of the submitted referendum whose Decision Deposit is yet to be"%string; "  posted."%string; ""%string; "Emits `DecisionDepositPlaced`."%string]); (Variant "refund_decision_deposit"%string [(Field (Some "index"%string) 4%N (Some "ReferendumIndex"%string) [])] 2%N ["Refund the Decision Deposit for a closed referendum back to the depositor."%string; ""%string; "- `origin`: must be `Signed` or `Root`."%string; "- `index`: The index of a closed referendum whose Decision Deposit has not yet been"%string; "  refunded."%string; ""%string; "Emits `DecisionDepositRefunded`."%string]); (Variant "cancel"%string [(Field (Some "index"%string) 4%N (Some "ReferendumIndex"%string) [])] 3%N ["Cancel an ongoing referendum."%string; ""%string; "- `origin`: must be the `CancelOrigin`."%string; "- `index`: The index of the referendum to be cancelled."%string; ""%string; "Emits `Cancelled`."%string]); (Variant "kill"%string [(Field (Some "index"%string) 4%N (Some "ReferendumIndex"%string) [])] 4%N ["Cancel an ongoing referendum and slash the deposits."%string; ""%string; "- `origin`: must be the `KillOrigin`."%string; "- `index`: The index of the referendum to be cancelled."%string; ""%string; "Emits `Killed` and `DepositSlashed`."%string]); (Variant "nudge_referendum"%string [(Field (Some "index"%string) 4%N (Some "ReferendumIndex"%string) [])] 5%N ["Advance a referendum onto its next logical state. Only used internally."%string; ""%string; "- `origin`: must be `Root`."%string; "- `index`: the referendum to be advanced."%string]); (Variant "one_fewer_deciding"%string [(Field (Some "track"%string) 56%N (Some "TrackIdOf<T, I>"%string) [])] 6%N ["Advance a track onto its next logical state. Only used internally."%string; ""%string; "- `origin`: must be `Root`."%string; "- `track`: the track to be advanced."%string; ""%string; "Action item for when there is now one fewer referendum in the deciding phase and the"%string; "`DecidingCount` is not yet updated. This means that we should either:"%string; "- begin deciding another referendum (and leave `DecidingCount` alone); or"%string; "- decrement `DecidingCount`."%string]); (Variant "refund_submission_deposit"%string [(Field (Some "index"%string) 4%N (Some "ReferendumIndex"%string) [])] 7%N ["Refund the Submission Deposit for a closed referendum back to the depositor."%string; ""%string; "- `origin`: must be `Signed` or `Root`."%string; "- `index`: The index of a closed referendum whose Submission Deposit has not yet been"%string; "  refunded."%string; ""%string; "Emits `SubmissionDepositRefunded`."%string]); (Variant "set_metadata"%string [(Field (Some "index"%string) 4%N (Some "ReferendumIndex"%string) []); (Field (Some "maybe_hash"%string) 92%N (Some "Option<PreimageHash>"%string) [])] 8%N ["Set or clear metadata of a referendum."%string; ""%string; "Parameters:"%string; "- `origin`: Must be `Signed` by a creator of a referendum or by anyone to clear a"%string; "  metadata of a finished referendum."%string; "- `index`:  The index of a referendum to set or clear metadata for."%string; "- `maybe_hash`: The hash of an on-chain stored preimage. `None` to clear a metadata."%string])]) ["Contains one variant per dispatchable that can be called by an extrinsic."%string]).
Definition md_t359 : ty := (Ty ["bifrost_stable_pool"%string; "pallet"%string; "Call"%string] [("T"%string,None)] (TVariant [(Variant "create_pool"%string [(Field (Some "assets"%string) 268%N (Some "Vec<AssetIdOf<T>>"%string) []); (Field (Some "precisions"%string) 360%N (Some "Vec<AtLeast64BitUnsignedOf<T>>"%string) []); (Field (Some "mint_fee"%string) 6%N (Some "AtLeast64BitUnsignedOf<T>"%string) []); (Field (Some "swap_fee"%string) 6%N (Some "AtLeast64BitUnsignedOf<T>"%string) []); (Field (Some "redeem_fee"%string) 6%N (Some "AtLeast64BitUnsignedOf<T>"%string) []); (Field (Some "initial_a"%string) 6%N (Some "AtLeast64BitUnsignedOf<T>"%string) []); (Field (Some "fee_recipient"%string) 0%N (Some "AccountIdOf<T>"%string) []); (Field (Some "yield_recipient"%string) 0%N (Some "AccountIdOf<T>"%string) []); (Field (Some "precision"%string) 6%N (Some "AtLeast64BitUnsignedOf<T>"%string) [])] 0%N []); (Variant "add_liquidity"%string [(Field (Some "pool_id"%string) 4%N (Some "StableAssetPoolId"%string) []); (Field (Some "amounts"%string) 360%N (Some "Vec<T::Balance>"%string) []); (Field (Some "min_mint_amount"%string) 6%N (Some "T::Balance"%string) [])] 1%N []); (Variant "swap"%string [(Field (Some "pool_id"%string) 4%N (Some "StableAssetPoolId"%string) []); (Field (Some "i"%string) 4%N (Some "PoolTokenIndex"%string) []); (Field (Some "j"%string) 4%N (Some "PoolTokenIndex"%string) []); (Field (Some "dx"%string) 6%N (Some "T::Balance"%string) []); (Field (Some "min_dy"%string) 6%N (Some "T::Balance"%string) [])] 2%N []); (Variant "redeem_proportion"%string [(Field (Some "pool_id"%string) 4%N (Some "StableAssetPoolId"%string) []); (Field (Some "amount"%string) 6%N (Some "T::Balance"%string) []); (Field (Some "min_redeem_amounts"%string) 360%N (Some "Vec<T::Balance>"%string) [])] 3%N []); (Variant "redeem_single"%string [(Field (Some "pool_id"%string) 4%N (Some "StableAssetPoolId"%string) []); (Field (Some "amount"%string) 6%N (Some "T::Balance"%string) []); (Field (Some "i"%string) 4%N (Some "PoolTokenIndex"%string) []); (Field (Some "min_redeem_amount"%string) 6%N (Some "T::Balance"%string) []); (Field (Some "asset_length"%string) 4%N (Some "u32"%string) [])] 4%N []); (Variant "redeem_multi"%string [(Field (Some "pool_id"%string) 4%N (Some "StableAssetPoolId"%string) []); (Field (Some "amounts"%string) 360%N (Some "Vec<T::Balance>"%string) []); (Field (Some "max_redeem_amount"%string) 6%N (Some "T::Balance"%string) [])] 5%N []); (Variant "modify_a"%string [(Field (Some "pool_id"%string) 4%N (Some "StableAssetPoolId"%string) []); (Field (Some "a"%string) 6%N (Some "T::AtLeast64BitUnsigned"%string) []); (Field (Some "future_a_block"%string) 4%N (Some "T::BlockNumber"%string) [])] 6%N []); (Variant "modify_fees"%string [(Field (Some "pool_id"%string) 4%N (Some "StableAssetPoolId"%string) []); (Field (Some "mint_fee"%string) 281%N (Some "Option<T::AtLeast64BitUnsigned>"%string) []); (Field (Some "swap_fee"%string) 281%N (Some "Option<T::AtLeast64BitUnsigned>"%string) []); (Field (Some "redeem_fee"%string) 281%N (Some "Option<T::AtLeast64BitUnsigned>"%string) [])] 7%N []); (Variant "modify_recipients"%string [(Field (Some "pool_id"%string) 4%N (Some "StableAssetPoolId"%string) []); (Field (Some "fee_recipient"%string) 94%N (Some "Option<T::AccountId>"%string) []); (Field (Some "yield_recipient"%string) 94%N (Some "Option<T::AccountId>"%string) [])] 8%N []); (Variant "edit_token_rate"%string [(Field (Some "pool_id"%string) 4%N (Some "StableAssetPoolId"%string) []); (Field (Some "token_rate_info"%string) 361%N (Some "Vec<
(AssetIdOf<T>,
(AtLeast64BitUnsignedOf<T>, AtLeast64BitUnsignedOf<T>),)>"%string) [])] 9%N [])]) ["Contains one variant per dispatchable that can be called by an extrinsic."%string]).
Definition md_t360 : ty := (Ty [] [] (TSequence 6%N) []).
Definition md_t361 : ty := (Ty [] [] (TSequence 362%N) []).
Definition md_t362 : ty := (Ty [] [] (TTuple [248%N; 363%N]) []).
Definition md_t363 : ty := (Ty [] [] (TTuple [6%N; 6%N]) []).
Definition md_t364 : ty := (Ty ["bifrost_vtoken_voting"%string; "pallet"%string; "Call"%string] [("T"%string,None)] (TVariant [(Variant "vote"%string [(Field (Some "vtoken"%string) 248%N (Some "CurrencyIdOf<T>"%string) []); (Field (Some "poll_index"%string) 66%N (Some "PollIndex"%string) []); (Field (Some "vote"%string) 365%N (Some "AccountVote<BalanceOf<T>>"%string) [])] 0%N []); (Variant "unlock"%string [(Field (Some "vtoken"%string) 248%N (Some "CurrencyIdOf<T>"%string) []); (Field (Some "poll_index"%string) 66%N (Some "PollIndex"%string) [])] 1%N []); (Variant "remove_delegator_vote"%string [(Field (Some "vtoken"%string) 248%N (Some "CurrencyIdOf<T>"%string) []); (Field (Some "poll_index"%string) 66%N (Some "PollIndex"%string) []); (Field (Some "derivative_index"%string) 287%N (Some "DerivativeIndex"%string) [])] 2%N []); (Variant "kill_referendum"%string [(Field (Some "vtoken"%string) 248%N (Some "CurrencyIdOf<T>"%string) []); (Field (Some "poll_index"%string) 66%N (Some "PollIndex"%string) [])] 3%N []); (Variant "set_delegator_role"%string [(Field (Some "vtoken"%string) 248%N (Some "CurrencyIdOf<T>"%string) []); (Field (Some "derivative_index"%string) 287%N (Some "DerivativeIndex"%string) []); (Field (Some "vote_role"%string) 366%N (Some "VoteRole"%string) [])] 4%N []); (Variant "set_referendum_status"%string [(Field (Some "vtoken"%string) 248%N (Some "CurrencyIdOf<T>"%string) []); (Field (Some "poll_index"%string) 66%N (Some "PollIndex"%string) []); (Field (Some "info"%string) 367%N (Some "ReferendumInfoOf<T>"%string) [])] 5%N []); (Variant "set_vote_locking_period"%string [(Field (Some "vtoken"%string) 248%N (Some "CurrencyIdOf<T>"%string) []); (Field (Some "locking_period"%string) 4%N (Some "BlockNumberFor<T>"%string) [])] 6%N []); (Variant "set_undeciding_timeout"%string [(Field (Some "vtoken"%string) 248%N (Some "CurrencyIdOf<T>"%string) []); (Field (Some "undeciding_timeout"%string) 4%N (Some "BlockNumberFor<T>"%string) [])] 7%N []); (Variant "notify_vote"%string [(Field (Some "query_id"%string) 11%N (Some "QueryId"%string) []); (Field (Some "response"%string) 164%N (Some "Response"%string) [])] 8%N []); (Variant "notify_remove_delegator_vote"%string [(Field (Some "query_id"%string) 11%N (Some "QueryId"%string) []); (Field (Some "response"%string) 164%N (Some "Response"%string) [])] 10%N [])]) ["Contains one variant per dispatchable that can be called by an extrinsic."%string]).
Definition md_t365 : ty := (Ty ["bifrost_vtoken_voting"%string; "vote"%string; "AccountVote"%string] [("Balance"%string,(Some 6%N))] (TVariant [(Variant "Standard"%string [(Field (Some "vote"%string) 102%N (Some "Vote"%string) []); (Field (Some "balance"%string) 6%N (Some "Balance"%string) [])] 0%N []); (Variant "Split"%string [(Field (Some "aye"%string) 6%N (Some "Balance"%string) []); (Field (Some "nay"%string) 6%N (Some "Balance"%string) [])] 1%N []); (Variant "SplitAbstain"%string [(Field (Some "aye"%string) 6%N (Some "Balance"%string) []); (Field (Some "nay"%string) 6%N (Some "Balance"%string) []); (Field (Some "abstain"%string) 6%N (Some "Balance"%string) [])] 2%N [])]) []).
Definition md_t366 : ty := (Ty ["bifrost_vtoken_voting"%string; "vote"%string; "VoteRole"%string] [] (TVariant [(Variant "Standard"%string [(Field (Some "aye"%string) 45%N (Some "bool"%string) []); (Field (Some "conviction"%string) 103%N (Some "Conviction"%string) [])] 0%N []); (Variant "Split"%string [] 1%N []); (Variant "SplitAbstain"%string [] 2%N [])]) []).
Definition md_t367 : ty := (Ty ["bifrost_vtoken_voting"%string; "vote"%string; "ReferendumInfo"%string] [("Moment"%string,(Some 4%N)); ("Tally"%string,(Some 368%N))] (TVariant [(Variant "Ongoing"%string [(Field None 369%N (Some "ReferendumStatus<Moment, Tally>"%string) [])] 0%N []); (Variant "Completed"%string [(Field None 4%N (Some "Moment"%string) [])] 1%N []); (Variant "Killed"%string [(Field None 4%N (Some "Moment"%string) [])] 2%N [])]) []).
Definition md_t368 : ty := (Ty ["bifrost_vtoken_voting"%string; "vote"%string; "Tally"%string] [("Votes"%string,(Some 6%N)); ("Total"%string,None)] (TComposite [(Field (Some "ayes"%string) 6%N (Some "Votes"%string) []); (Field (Some "nays"%string) 6%N (Some "Votes"%string) []); (Field (Some "support"%string) 6%N (Some "Votes"%string) [])]) []).
Definition md_t369 : ty := (Ty ["bifrost_vtoken_voting"%string; "vote"%string; "ReferendumStatus"%string] [("Moment"%string,(Some 4%N)); ("Tally"%string,(Some 368%N))] (TComposite [(Field (Some "submitted"%string) 91%N (Some "Option<Moment>"%string) []); (Field (Some "tally"%string) 368%N (Some "Tally"%string) [])]) []).
Definition md_t370 : ty := (Ty ["bounded_collections"%string; "bounded_vec"%string; "BoundedVec"%string] [("T"%string,(Some 2%N)); ("S"%string,None)] (TComposite [(Field None 13%N (Some "Vec<T>"%string) [])]) []).
Definition md_t371 : ty := (Ty ["pallet_conviction_voting"%string; "types"%string; "Tally"%string] [("Votes"%string,(Some 6%N)); ("Total"%string,None)] (TComposite [(Field (Some "ayes"%string) 6%N (Some "Votes"%string) []); (Field (Some "nays"%string) 6%N (Some "Votes"%string) []); (Field (Some "support"%string) 6%N (Some "Votes"%string) [])]) []).
Definition md_t372 : ty := (Ty ["pallet_whitelist"%string; "pallet"%string; "Event"%string] [("T"%string,None)] (TVariant [(Variant "CallWhitelisted"%string [(Field (Some "call_hash"%string) 12%N (Some "PreimageHash"%string) [])] 0%N []); (Variant "WhitelistedCallRemoved"%string [(Field (Some "call_hash"%string) 12%N (Some "PreimageHash"%string) [])] 1%N []); (Variant "WhitelistedCallDispatched"%string [(Field (Some "call_hash"%string) 12%N (Some "PreimageHash"%string) []); (Field (Some "result"%string) 373%N (Some "DispatchResultWithPostInfo"%string) [])] 2%N [])]) ["
			The [event](https://docs.substrate.io/main-docs/build/events-errors/) emitted
			by this pallet.
			"%string]).
Definition md_t373 : ty := (Ty ["Result"%string] [("T"%string,(Some 374%N)); ("E"%string,(Some 376%N))] (TVariant [(Variant "Ok"%string [(Field None 374%N None [])] 0%N []); (Variant "Err"%string [(Field None 376%N None [])] 1%N [])]) []).
Definition md_t374 : ty := (Ty ["frame_support"%string; "dispatch"%string; "PostDispatchInfo"%string] [] (TComposite [(Field (Some "actual_weight"%string) 375%N (Some "Option<Weight>"%string) []); (Field (Some "pays_fee"%string) 24%N (Some "Pays"%string) [])]) []).
Definition md_t375 : ty := (Ty ["Option"%string] [("T"%string,(Some 9%N))] (TVariant [(Variant "None"%string [] 0%N []); (Variant "Some"%string [(Field None 9%N None [])] 1%N [])]) []).
Definition md_t376 : ty := (Ty ["sp_runtime"%string; "DispatchErrorWithPostInfo"%string] [("Info"%string,(Some 374%N))] (TComposite [(Field (Some "post_info"%string) 374%N (Some "Info"%string) []); (Field (Some "error"%string) 25%N (Some "DispatchError"%string) [])]) []).
Definition md_t377 : ty := (Ty ["cumulus_pallet_xcmp_queue"%string; "pallet"%string; "Event"%string] [("T"%string,None)] (TVariant [(Variant "Success"%string [(Field (Some "message_hash"%string) 32%N (Some "Option<XcmHash>"%string) []); (Field (Some "weight"%string) 9%N (Some "Weight"%string) [])] 0%N ["Some XCM was executed ok."%string]); (Variant "Fail"%string [(Field (Some "message_hash"%string) 32%N (Some "Option<XcmHash>"%string) []); (Field (Some "error"%string) 167%N (Some "XcmError"%string) []); (Field (Some "weight"%string) 9%N (Some "Weight"%string) [])] 1%N ["Some XCM failed."%string]); (Variant "BadVersion"%string [(Field (Some "message_hash"%string) 32%N (Some "Option<XcmHash>"%string) [])] 2%N ["Bad XCM version used."%string]); (Variant "BadFormat"%string [(Field (Some "message_hash"%string) 32%N (Some "Option<XcmHash>"%string) [])] 3%N ["Bad XCM format used."%string]); (Variant "XcmpMessageSent"%string [(Field (Some "message_hash"%string) 32%N (Some "Option<XcmHash>"%string) [])] 4%N ["An HRMP message was sent to a sibling parachain."%string]); (Variant "OverweightEnqueued"%string [(Field (Some "sender"%string) 77%N (Some "ParaId"%string) []); (Field (Some "sent_at"%string) 4%N (Some "RelayBlockNumber"%string) []); (Field (Some "index"%string) 11%N (Some "OverweightIndex"%string) []); (Field (Some "required"%string) 9%N (Some "Weight"%string) [])] 5%N ["An XCM exceeded the individual message weight budget."%string]); (Variant "OverweightServiced"%string [(Field (Some "index"%string) 11%N (Some "OverweightIndex"%string) []); (Field (Some "used"%string) 9%N (Some "Weight"%string) [])] 6%N ["An XCM from the overweight queue was executed with the given actual weight used."%string])]) ["
			The [event](https://docs.substrate.io/main-docs/build/events-errors/) emitted
			by this pallet.
			"%string]).
Definition md_t378 : ty := (Ty ["pallet_xcm"%string; "pallet"%string; "Event"%string] [("T"%string,None)] (TVariant [(Variant "Attempted"%string [(Field None 379%N (Some "xcm::latest::Outcome"%string) [])] 0%N ["Execution of an XCM message was attempted."%string; ""%string; "\[ outcome \]"%string]); (Variant "Sent"%string [(Field None 112%N (Some "MultiLocation"%string) []); (Field None 112%N (Some "MultiLocation"%string) []); (Field None 155%N (Some "Xcm<()>"%string) [])] 1%N ["A XCM message was sent."%string; ""%string; "\[ origin, destination, message \]"%string]); (Variant "UnexpectedResponse"%string [(Field None 112%N (Some "MultiLocation"%string) []); (Field None 11%N (Some "QueryId"%string) [])] 2%N ["Query response received which does not match a registered query. This may be because a"%string; "matching query was never registered, it may be because it is a duplicate response, or"%string; "because the query timed out."%string; ""%string; "\[ origin location, id \]"%string]); (Variant "ResponseReady"%string [(Field None 11%N (Some "QueryId"%string) []); (Field None 164%N (Some "Response"%string) [])] 3%N ["Query response has been received and is ready for taking with `take_response`. There is"%string; "no registered notification call."%string; ""%string; "\[ id, response \]"%string]); (Variant "Notified"%string [(Field None 11%N (Some "QueryId"%string) []); (Field None 2%N (Some "u8"%string) []); (Field None 2%N (Some "u8"%string) [])] 4%N ["Query response has been received and query is removed. The registered notification has"%string; "been dispatched and executed successfully."%string; ""%string; "\[ id, pallet index, call index \]"%string]); (Variant "NotifyOverweight"%string [(Field None 11%N (Some "QueryId"%string) []); (Field None 2%N (Some "u8"%string) []); (Field None 2%N (Some "u8"%string) []); (Field None 9%N (Some "Weight"%string) []); (Field None 9%N (Some "Weight"%string) [])] 5%N ["Query response has been received and query is removed. The registered notification could"%string; "not be dispatched because the dispatch weight is greater than the maximum weight"%string; "originally budgeted by this runtime for the query result."%string; ""%string; "\[ id, pallet index, call index, actual weight, max budgeted weight \]"%string]); (Variant "NotifyDispatchError"%string [(Field None 11%N (Some "QueryId"%string) []); (Field None 2%N (Some "u8"%string) []); (Field None 2%N (Some "u8"%string) [])] 6%N ["Query response has been received and query is removed. There was a general error with"%string; "dispatching the notification call."%string; ""%string; "\[ id, pallet index, call index \]"%string]); (Variant "NotifyDecodeFailed"%string [(Field None 11%N (Some "QueryId"%string) []); (Field None 2%N (Some "u8"%string) []); (Field None 2%N (Some "u8"%string) [])] 7%N ["Query response has been received and query is removed. The dispatch was unable to be"%string; "decoded into a `Call`; this might be due to dispatch function having a signature which"%string; "is not `(origin, QueryId, Response)`."%string; ""%string; "\[ id, pallet index, call index \]"%string]); (Variant "InvalidResponder"%string [(Field None 112%N (Some "MultiLocation"%string) []); (Field None 11%N (Some "QueryId"%string) []); (Field None 174%N (Some "Option<MultiLocation>"%string) [])] 8%N ["Expected query response has been received but the origin location of the response does"%string; "not match that expected. The query remains registered for a later, valid, response to"%string; "be received and acted upon."%string; ""%string; "\[ origin location, id, expected location \]"%string]); (Variant "InvalidResponderVersion"%string [(Field None 112%N (Some "MultiLocation"%string) []); (Field None 11%N (Some "QueryId"%string) [])] 9%N ["Expected query response has been received but the expected origin location placed in"%string; "storage by this runtime previously cannot be decoded. The query remains registered."%string; ""%string; "This is unexpected (since a location placed in storage in a previously executing"%string; "runtime should be readable prior to query timeout) and dangerous since the possibly"%string; "valid response will be dropped. Manual governance intervention is probably going to be"%string; "needed."%string; ""%string; "\[ origin location, id \]"%string]); (Variant "ResponseTaken"%string [(Field None 11%N (Some "QueryId"%string) [])] 10%N ["Received query response has been read and removed."%string; ""%string; "\[ id \]"%string]); (Variant "AssetsTrapped"%string [(Field None 12%N (Some "H256"%string) []); (Field None 112%N (Some "MultiLocation"%string) []); (Field None 180%N (Some "VersionedMultiAssets"%string) [])] 11%N ["Some assets have been placed in an asset trap."%string; ""%string; "\[ hash, origin, assets \]"%string]); (Variant "VersionChangeNotified"%string [(Field None 112%N (Some "MultiLocation"%string) []); (Field None 4%N (Some "XcmVersion"%string) []); (Field None 158%N (Some "MultiAssets"%string) [])] 12%N ["An XCM version change notification message has been attempted to be sent."%string; ""%string; "The cost of sending it (borne by the chain) is included."%string; ""%string; "\[ destination, result, cost \]"%string]); (Variant "SupportedVersionChanged"%string [(Field None 112%N (Some "MultiLocation"%string) []); (Field None 4%N (Some "XcmVersion"%string) [])] 13%N ["The supported version of a location has been changed. This might be through an"%string; "automatic notification or a manual intervention."%string; ""%string; "\[ location, XCM version \]"%string]); (Variant "NotifyTargetSendFail"%string [(Field None 112%N (Some "MultiLocation"%string) []); (Field None 11%N (Some "QueryId"%string) []); (Field None 167%N (Some "XcmError"%string) [])] 14%N ["A given location which had a version change subscription was dropped owing to an error"%string; "sending the notification to it."%string; ""%string; "\[ location, query ID, error \]"%string]); (Variant "NotifyTargetMigrationFail"%string [(Field None 125%N (Some "VersionedMultiLocation"%string) []); (Field None 11%N (Some "QueryId"%string) [])] 15%N ["A given location which had a version change subscription was dropped owing to an error"%string; "migrating the location to our new XCM format."%string; ""%string; "\[ location, query ID \]"%string]); (Variant "InvalidQuerierVersion"%string [(Field None 112%N (Some "MultiLocation"%string) []); (Field None 11%N (Some "QueryId"%string) [])] 16%N ["Expected query response has been received but the expected querier location placed in"%string; "storage by this runtime previously cannot be decoded. The query remains registered."%string; ""%string; "This is unexpected (since a location placed in storage in a previously executing"%string; "runtime should be readable prior to query timeout) and dangerous since the possibly"%string; "valid response will be dropped. Manual governance intervention is probably going to be"%string; "needed."%string; ""%string; "\[ origin location, id \]"%string]); (Variant "InvalidQuerier"%string [(Field None 112%N (Some "MultiLocation"%string) []); (Field None 11%N (Some "QueryId"%string) []); (Field None 112%N (Some "MultiLocation"%string) []); (Field None 174%N (Some "Option<MultiLocation>"%string) [])] 17%N ["Expected query response has been received but the querier location of the response does"%string; "not match the expected. The query remains registered for a later, valid, response to"%string; "be received and acted upon."%string; ""%string; "\[ origin location, id, expected querier, maybe actual querier \]"%string]); (Variant "VersionNotifyStarted"%string [(Field None 112%N (Some "MultiLocation"%string) []); (Field None 158%N (Some "MultiAssets"%string) [])] 18%N ["A remote has requested XCM version change notification from us and we have honored it."%string; "A version information message is sent to them and its cost is included."%string; ""%string; "\[ destination location, cost \]"%string]); (Variant "VersionNotifyRequested"%string [(Field None 112%N (Some "MultiLocation"%string) []); (Field None 158%N (Some "MultiAssets"%string) [])] 19%N ["We have requested that a remote chain sends us XCM version change notifications."%string; ""%string; "\[ destination location, cost \]"%string]); (Variant "VersionNotifyUnrequested"%string [(Field None 112%N (Some "MultiLocation"%string) []); (Field None 158%N (Some "MultiAssets"%string) [])] 20%N ["We have requested that a remote chain stops sending us XCM version change notifications."%string; ""%string; "\[ destination location, cost \]"%string]); (Variant "FeesPaid"%string [(Field None 112%N (Some "MultiLocation"%string) []); (Field None 158%N (Some "MultiAssets"%string) [])] 21%N ["Fees were paid from a location for an operation (often for using `SendXcm`)."%string; ""%string; "\[ paying location, fees \]"%string]); (Variant "AssetsClaimed"%string [(Field None 12%N (Some "H256"%string) []); (Field None 112%N (Some "MultiLocation"%string) []); (Field None 180%N (Some "VersionedMultiAssets"%string) [])] 22%N ["Some assets have been claimed from an asset trap"%string; ""%string; "\[ hash, origin, assets \]"%string])]) ["
			The [event](https://docs.substrate.io/main-docs/build/events-errors/) emitted
			by this pallet.
			"%string]).
Definition md_t379 : ty := (Ty ["xcm"%string; "v3"%string; "traits"%string; "Outcome"%string] [] (TVariant [(Variant "Complete"%string [(Field None 9%N (Some "Weight"%string) [])] 0%N []); (Variant "Incomplete"%string [(Field None 9%N (Some "Weight"%string) []); (Field None 167%N (Some "Error"%string) [])] 1%N []); (Variant "Error"%string [(Field None 167%N (Some "Error"%string) [])] 2%N [])]) []).
Definition md_t380 : ty := (Ty ["cumulus_pallet_xcm"%string; "pallet"%string; "Event"%string] [("T"%string,None)] (TVariant [(Variant "InvalidFormat"%string [(Field None 1%N (Some "[u8; 32]"%string) [])] 0%N ["Downward message is invalid XCM."%string; "\[ id \]"%string]); (Variant "UnsupportedVersion"%string [(Field None 1%N (Some "[u8; 32]"%string) [])] 1%N ["Downward message is unsupported version of XCM."%string; "\[ id \]"%string]); (Variant "ExecutedDownward"%string [(Field None 1%N (Some "[u8; 32]"%string) []); (Field None 379%N (Some "Outcome"%string) [])] 2%N ["Downward message executed with the given outcome."%string; "\[ id, outcome \]"%string])]) ["
			The [event](https://docs.substrate.io/main-docs/build/events-errors/) emitted
			by this pallet.
			"%string]).
Definition md_t381 : ty := (Ty ["cumulus_pallet_dmp_queue"%string; "pallet"%string; "Event"%string] [("T"%string,None)] (TVariant [(Variant "InvalidFormat"%string [(Field (Some "message_id"%string) 1%N (Some "MessageId"%string) [])] 0%N ["Downward message is invalid XCM."%string]); (Variant "UnsupportedVersion"%string [(Field (Some "message_id"%string) 1%N (Some "MessageId"%string) [])] 1%N ["Downward message is unsupported version of XCM."%string]); (Variant "ExecutedDownward"%string [(Field (Some "message_id"%string) 1%N (Some "MessageId"%string) []); (Field (Some "outcome"%string) 379%N (Some "Outcome"%string) [])] 2%N ["Downward message executed with the given outcome."%string]); (Variant "WeightExhausted"%string [(Field (Some "message_id"%string) 1%N (Some "MessageId"%string) []); (Field (Some "remaining_weight"%string) 9%N (Some "Weight"%string) []); (Field (Some "required_weight"%string) 9%N (Some "Weight"%string) [])] 3%N ["The weight limit for handling downward messages was reached."%string]); (Variant "OverweightEnqueued"%string [(Field (Some "message_id"%string) 1%N (Some "MessageId"%string) []); (Field (Some "overweight_index"%string) 11%N (Some "OverweightIndex"%string) []); (Field (Some "required_weight"%string) 9%N (Some "Weight"%string) [])] 4%N ["Downward message is overweight and was placed in the overweight queue."%string]); (Variant "OverweightServiced"%string [(Field (Some "overweight_index"%string) 11%N (Some "OverweightIndex"%string) []); (Field (Some "weight_used"%string) 9%N (Some "Weight"%string) [])] 5%N ["Downward message from the overweight queue was executed."%string]); (Variant "MaxMessagesExhausted"%string [(Field (Some "message_id"%string) 1%N (Some "MessageId"%string) [])] 6%N ["The maximum number of downward messages was."%string])]) ["
			The [event](https://docs.substrate.io/main-docs/build/events-errors/) emitted
			by this pallet.
			"%string]).
Definition md_t382 : ty := (Ty ["pallet_utility"%string; "pallet"%string; "Event"%string] [] (TVariant [(Variant "BatchInterrupted"%string [(Field (Some "index"%string) 4%N (Some "u32"%string) []); (Field (Some "error"%string) 25%N (Some "DispatchError"%string) [])] 0%N ["Batch of dispatches did not complete fully. Index of first failing dispatch given, as"%string; "well as the error."%string]); (Variant "BatchCompleted"%string [] 1%N ["Batch of dispatches completed fully with no error."%string]); (Variant "BatchCompletedWithErrors"%string [] 2%N ["Batch of dispatches completed but has errors."%string]); (Variant "ItemCompleted"%string [] 3%N ["A single item within a Batch of dispatches has completed with no error."%string]); (Variant "ItemFailed"%string [(Field (Some "error"%string) 25%N (Some "DispatchError"%string) [])] 4%N ["A single item within a Batch of dispatches has completed with error."%string]); (Variant "DispatchedAs"%string [(Field (Some "result"%string) 46%N (Some "DispatchResult"%string) [])] 5%N ["A call was dispatched."%string])]) ["
			The [event](https://docs.substrate.io/main-docs/build/events-errors/) emitted
			by this pallet.
			"%string]).
Definition md_t383 : ty := (Ty ["pallet_scheduler"%string; "pallet"%string; "Event"%string] [("T"%string,None)] (TVariant [(Variant "Scheduled"%string [(Field (Some "when"%string) 4%N (Some "T::BlockNumber"%string) []); (Field (Some "index"%string) 4%N (Some "u32"%string) [])] 0%N ["Scheduled some task."%string]); (Variant "Canceled"%string [(Field (Some "when"%string) 4%N (Some "T::BlockNumber"%string) []); (Field (Some "index"%string) 4%N (Some "u32"%string) [])] 1%N ["Canceled some task."%string]); (Variant "Dispatched"%string [(Field (Some "task"%string) 194%N (Some "TaskAddress<T::BlockNumber>"%string) []); (Field (Some "id"%string) 32%N (Some "Option<TaskName>"%string) []); (Field (Some "result"%string) 46%N (Some "DispatchResult"%string) [])] 2%N ["Dispatched some task."%string]); (Variant "CallUnavailable"%string [(Field (Some "task"%string) 194%N (Some "TaskAddress<T::BlockNumber>"%string) []); (Field (Some "id"%string) 32%N (Some "Option<TaskName>"%string) [])] 3%N ["The call for the provided hash was not found so the task has been aborted."%string]); (Variant "PeriodicFailed"%string [(Field (Some "task"%string) 194%N (Some "TaskAddress<T::BlockNumber>"%string) []); (Field (Some "id"%string) 32%N (Some "Option<TaskName>"%string) [])] 4%N ["The given task was unable to be renewed since the agenda is full at that block."%string]); (Variant "PermanentlyOverweight"%string [(Field (Some "task"%string) 194%N (Some "TaskAddress<T::BlockNumber>"%string) []); (Field (Some "id"%string) 32%N (Some "Option<TaskName>"%string) [])] 5%N ["The given task can never be executed since it is overweight."%string])]) ["Events type."%string]).
Definition md_t384 : ty := (Ty ["pallet_proxy"%string; "pallet"%string; "Event"%string] [("T"%string,None)] (TVariant [(Variant "ProxyExecuted"%string [(Field (Some "result"%string) 46%N (Some "DispatchResult"%string) [])] 0%N ["A proxy was executed correctly, with the given."%string]); (Variant "PureCreated"%string [(Field (Some "pure"%string) 0%N (Some "T::AccountId"%string) []); (Field (Some "who"%string) 0%N (Some "T::AccountId"%string) []); (Field (Some "proxy_type"%string) 197%N (Some "T::ProxyType"%string) []); (Field (Some "disambiguation_index"%string) 56%N (Some "u16"%string) [])] 1%N ["A pure account has been created by new proxy with given"%string; "disambiguation index and proxy type."%string]); (Variant "Announced"%string [(Field (Some "real"%string) 0%N (Some "T::AccountId"%string) []); (Field (Some "proxy"%string) 0%N (Some "T::AccountId"%string) []); (Field (Some "call_hash"%string) 12%N (Some "CallHashOf<T>"%string) [])] 2%N ["An announcement was placed to make a call in the future."%string]); (Variant "ProxyAdded"%string [(Field (Some "delegator"%string) 0%N (Some "T::AccountId"%string) []); (Field (Some "delegatee"%string) 0%N (Some "T::AccountId"%string) []); (Field (Some "proxy_type"%string) 197%N (Some "T::ProxyType"%string) []); (Field (Some "delay"%string) 4%N (Some "T::BlockNumber"%string) [])] 3%N ["A proxy was added."%string]); (Variant "ProxyRemoved"%string [(Field (Some "delegator"%string) 0%N (Some "T::AccountId"%string) []); (Field (Some "delegatee"%string) 0%N (Some "T::AccountId"%string) []); (Field (Some "proxy_type"%string) 197%N (Some "T::ProxyType"%string) []); (Field (Some "delay"%string) 4%N (Some "T::BlockNumber"%string) [])] 4%N ["A proxy was removed."%string])]) ["
			The [event](https://docs.substrate.io/main-docs/build/events-errors/) emitted
			by this pallet.
			"%string]).
Definition md_t385 : ty := (Ty ["pallet_multisig"%string; "pallet"%string; "Event"%string] [("T"%string,None)] (TVariant [(Variant "NewMultisig"%string [(Field (Some "approving"%string) 0%N (Some "T::AccountId"%string) []); (Field (Some "multisig"%string) 0%N (Some "T::AccountId"%string) []); (Field (Some "call_hash"%string) 1%N (Some "CallHash"%string) [])] 0%N ["A new multisig operation has begun."%string]); (Variant "MultisigApproval"%string [(Field (Some "approving"%string) 0%N (Some "T::AccountId"%string) []); (Field (Some "timepoint"%string) 200%N (Some "Timepoint<T::BlockNumber>"%string) []); (Field (Some "multisig"%string) 0%N (Some "T::AccountId"%string) []); (Field (Some "call_hash"%string) 1%N (Some "CallHash"%string) [])] 1%N ["A multisig operation has been approved by someone."%string]); (Variant "MultisigExecuted"%string [(Field (Some "approving"%string) 0%N (Some "T::AccountId"%string) []); (Field (Some "timepoint"%string) 200%N (Some "Timepoint<T::BlockNumber>"%string) []); (Field (Some "multisig"%string) 0%N (Some "T::AccountId"%string) []); (Field (Some "call_hash"%string) 1%N (Some "CallHash"%string) []); (Field (Some "result"%string) 46%N (Some "DispatchResult"%string) [])] 2%N ["A multisig operation has been executed."%string]); (Variant "MultisigCancelled"%string [(Field (Some "cancelling"%string) 0%N (Some "T::AccountId"%string) []); (Field (Some "timepoint"%string) 200%N (Some "Timepoint<T::BlockNumber>"%string) []); (Field (Some "multisig"%string) 0%N (Some "T::AccountId"%string) []); (Field (Some "call_hash"%string) 1%N (Some "CallHash"%string) [])] 3%N ["A multisig operation has been cancelled."%string])]) ["
			The [event](https://docs.substrate.io/main-docs/build/events-errors/) emitted
			by this pallet.
			"%string]).
Definition md_t386 : ty := (Ty ["pallet_identity"%string; "pallet"%string; "Event"%string] [("T"%string,None)] (TVariant [(Variant "IdentitySet"%string [(Field (Some "who"%string) 0%N (Some "T::AccountId"%string) [])] 0%N ["A name was set or reset (which will remove all judgements)."%string]); (Variant "IdentityCleared"%string [(Field (Some "who"%string) 0%N (Some "T::AccountId"%string) []); (Field (Some "deposit"%string) 6%N (Some "BalanceOf<T>"%string) [])] 1%N ["A name was cleared, and the given balance returned."%string]); (Variant "IdentityKilled"%string [(Field (Some "who"%string) 0%N (Some "T::AccountId"%string) []); (Field (Some "deposit"%string) 6%N (Some "BalanceOf<T>"%string) [])] 2%N ["A name was removed and the given balance slashed."%string]); (Variant "JudgementRequested"%string [(Field (Some "who"%string) 0%N (Some "T::AccountId"%string) []); (Field (Some "registrar_index"%string) 4%N (Some "RegistrarIndex"%string) [])] 3%N ["A judgement was asked from a registrar."%string]); (Variant "JudgementUnrequested"%string [(Field (Some "who"%string) 0%N (Some "T::AccountId"%string) []); (Field (Some "registrar_index"%string) 4%N (Some "RegistrarIndex"%string) [])] 4%N ["A judgement request was retracted."%string]); (Variant "JudgementGiven"%string [(Field (Some "target"%string) 0%N (Some "T::AccountId"%string) []); (Field (Some "registrar_index"%string) 4%N (Some "RegistrarIndex"%string) [])] 5%N ["A judgement was given by a registrar."%string]); (Variant "RegistrarAdded"%string [(Field (Some "registrar_index"%string) 4%N (Some "RegistrarIndex"%string) [])] 6%N ["A registrar was added."%string]); (Variant "SubIdentityAdded"%string [(Field (Some "sub"%string) 0%N (Some "T::AccountId"%string) []); (Field (Some "main"%string) 0%N (Some "T::AccountId"%string) []); (Field (Some "deposit"%string) 6%N (Some "BalanceOf<T>"%string) [])] 7%N ["A sub-identity was added to an identity and the deposit paid."%string]); (Variant "SubIdentityRemoved"%string [(Field (Some "sub"%string) 0%N (Some "T::AccountId"%string) []); (Field (Some "main"%string) 0%N (Some "T::AccountId"%string) []); (Field (Some "deposit"%string) 6%N (Some "BalanceOf<T>"%string) [])] 8%N ["A sub-identity was removed from an identity and the deposit freed."%string]); (Variant "SubIdentityRevoked"%string [(Field (Some "sub"%string) 0%N (Some "T::AccountId"%string) []); (Field (Some "main"%string) 0%N (Some "T::AccountId"%string) []); (Field (Some "deposit"%string) 6%N (Some "BalanceOf<T>"%string) [])] 9%N ["A sub-identity was cleared, and the given deposit repatriated from the"%string; "main identity account to the sub-identity account."%string])]) ["
			The [event](https://docs.substrate.io/main-docs/build/events-errors/) emitted
			by this pallet.
			"%string]).
Definition md_t387 : ty := (Ty ["bifrost_vesting"%string; "pallet"%string; "Event"%string] [("T"%string,None)] (TVariant [(Variant "VestingUpdated"%string [(Field None 0%N (Some "T::AccountId"%string) []); (Field None 6%N (Some "BalanceOf<T>"%string) [])] 0%N ["The amount vested has been updated. This could indicate more funds are available. The"%string; "balance given is the amount which is left unvested (and thus locked)."%string; "\[account, unvested\]"%string]); (Variant "VestingCompleted"%string [(Field None 0%N (Some "T::AccountId"%string) [])] 1%N ["An \[account\] has become fully vested. No further vesting can happen."%string])]) ["
			The [event](https://docs.substrate.io/main-docs/build/events-errors/) emitted
			by this pallet.
			"%string]).
Definition md_t388 : ty := (Ty ["pallet_treasury"%string; "pallet"%string; "Event"%string] [("T"%string,None); ("I"%string,None)] (TVariant [(Variant "Proposed"%string [(Field (Some "proposal_index"%string) 4%N (Some "ProposalIndex"%string) [])] 0%N ["New proposal."%string]); (Variant "Spending"%string [(Field (Some "budget_remaining"%string) 6%N (Some "BalanceOf<T, I>"%string) [])] 1%N ["We have ended a spend period and will now allocate funds."%string]); (Variant "Awarded"%string [(Field (Some "proposal_index"%string) 4%N (Some "ProposalIndex"%string) []); (Field (Some "award"%string) 6%N (Some "BalanceOf<T, I>"%string) []); (Field (Some "account"%string) 0%N (Some "T::AccountId"%string) [])] 2%N ["Some funds have been allocated."%string]); (Variant "Rejected"%string [(Field (Some "proposal_index"%string) 4%N (Some "ProposalIndex"%string) []); (Field (Some "slashed"%string) 6%N (Some "BalanceOf<T, I>"%string) [])] 3%N ["A proposal was rejected; funds were slashed."%string]); (Variant "Burnt"%string [(Field (Some "burnt_funds"%string) 6%N (Some "BalanceOf<T, I>"%string) [])] 4%N ["Some of our funds have been burnt."%string]); (Variant "Rollover"%string [(Field (Some "rollover_balance"%string) 6%N (Some "BalanceOf<T, I>"%string) [])] 5%N ["Spending has finished; this is the amount that rolls over until next spend."%string]); (Variant "Deposit"%string [(Field (Some "value"%string) 6%N (Some "BalanceOf<T, I>"%string) [])] 6%N ["Some funds have been deposited."%string]); (Variant "SpendApproved"%string [(Field (Some "proposal_index"%string) 4%N (Some "ProposalIndex"%string) []); (Field (Some "amount"%string) 6%N (Some "BalanceOf<T, I>"%string) []); (Field (Some "beneficiary"%string) 0%N (Some "T::AccountId"%string) [])] 7%N ["A new spend proposal has been approved."%string]); (Variant "UpdatedInactive"%string [(Field (Some "reactivated"%string) 6%N (Some "BalanceOf<T, I>"%string) []); (Field (Some "deactivated"%string) 6%N (Some "BalanceOf<T, I>"%string) [])] 8%N ["The inactive funds of the pallet have been updated."%string])]) ["
			The [event](https://docs.substrate.io/main-docs/build/events-errors/) emitted
			by this pallet.
			"%string]).
Definition md_t389 : ty := (Ty ["pallet_bounties"%string; "pallet"%string; "Event"%string] [("T"%string,None); ("I"%string,None)] (TVariant [(Variant "BountyProposed"%string [(Field (Some "index"%string) 4%N (Some "BountyIndex"%string) [])] 0%N ["New bounty proposal."%string]); (Variant "BountyRejected"%string [(Field (Some "index"%string) 4%N (Some "BountyIndex"%string) []); (Field (Some "bond"%string) 6%N (Some "BalanceOf<T, I>"%string) [])] 1%N ["A bounty proposal was rejected; funds were slashed."%string]); (Variant "BountyBecameActive"%string [(Field (Some "index"%string) 4%N (Some "BountyIndex"%string) [])] 2%N ["A bounty proposal is funded and became active."%string]); (Variant "BountyAwarded"%string [(Field (Some "index"%string) 4%N (Some "BountyIndex"%string) []); (Field (Some "beneficiary"%string) 0%N (Some "T::AccountId"%string) [])] 3%N ["A bounty is awarded to a beneficiary."%string]); (Variant "BountyClaimed"%string [(Field (Some "index"%string) 4%N (Some "BountyIndex"%string) []); (Field (Some "payout"%string) 6%N (Some "BalanceOf<T, I>"%string) []); (Field (Some "beneficiary"%string) 0%N (Some "T::AccountId"%string) [])] 4%N ["A bounty is claimed by beneficiary."%string]); (Variant "BountyCanceled"%string [(Field (Some "index"%string) 4%N (Some "BountyIndex"%string) [])] 5%N ["A bounty is cancelled."%string]); (Variant "BountyExtended"%string [(Field (Some "index"%string) 4%N (Some "BountyIndex"%string) [])] 6%N ["A bounty expiry is extended."%string])]) ["
			The [event](https://docs.substrate.io/main-docs/build/events-errors/) emitted
			by this pallet.
			"%string]).
Definition md_t390 : ty := (Ty ["pallet_tips"%string; "pallet"%string; "Event"%string] [("T"%string,None); ("I"%string,None)] (TVariant [(Variant "NewTip"%string [(Field (Some "tip_hash"%string) 12%N (Some "T::Hash"%string) [])] 0%N ["A new tip suggestion has been opened."%string]); (Variant "TipClosing"%string [(Field (Some "tip_hash"%string) 12%N (Some "T::Hash"%string) [])] 1%N ["A tip suggestion has reached threshold and is closing."%string]); (Variant "TipClosed"%string [(Field (Some "tip_hash"%string) 12%N (Some "T::Hash"%string) []); (Field (Some "who"%string) 0%N (Some "T::AccountId"%string) []); (Field (Some "payout"%string) 6%N (Some "BalanceOf<T, I>"%string) [])] 2%N ["A tip suggestion has been closed."%string]); (Variant "TipRetracted"%string [(Field (Some "tip_hash"%string) 12%N (Some "T::Hash"%string) [])] 3%N ["A tip suggestion has been retracted."%string]); (Variant "TipSlashed"%string [(Field (Some "tip_hash"%string) 12%N (Some "T::Hash"%string) []); (Field (Some "finder"%string) 0%N (Some "T::AccountId"%string) []); (Field (Some "deposit"%string) 6%N (Some "BalanceOf<T, I>"%string) [])] 4%N ["A tip suggestion has been slashed."%string])]) ["
			The [event](https://docs.substrate.io/main-docs/build/events-errors/) emitted
			by this pallet.
			"%string]).
Definition md_t391 : ty := (Ty ["pallet_preimage"%string; "pallet"%string; "Event"%string] [("T"%string,None)] (TVariant [(Variant "Noted"%string [(Field (Some "hash"%string) 12%N (Some "T::Hash"%string) [])] 0%N ["A preimage has been noted."%string]); (Variant "Requested"%string [(Field (Some "hash"%string) 12%N (Some "T::Hash"%string) [])] 1%N ["A preimage has been requested."%string]); (Variant "Cleared"%string [(Field (Some "hash"%string) 12%N (Some "T::Hash"%string) [])] 2%N ["A preimage has ben cleared."%string])]) ["
			The [event](https://docs.substrate.io/main-docs/build/events-errors/) emitted
			by this pallet.
			"%string]).
Definition md_t392 : ty := (Ty ["orml_xtokens"%string; "module"%string; "Event"%string] [("T"%string,None)] (TVariant [(Variant "TransferredMultiAssets"%string [(Field (Some "sender"%string) 0%N (Some "T::AccountId"%string) []); (Field (Some "assets"%string) 158%N (Some "MultiAssets"%string) []); (Field (Some "fee"%string) 160%N (Some "MultiAsset"%string) []); (Field (Some "dest"%string) 112%N (Some "MultiLocation"%string) [])] 0%N ["Transferred `MultiAsset` with fee."%string])]) ["
			The [event](https://docs.substrate.io/main-docs/build/events-errors/) emitted
			by this pallet.
			"%string]).
Definition md_t393 : ty := (Ty ["orml_tokens"%string; "module"%string; "Event"%string] [("T"%string,None)] (TVariant [(Variant "Endowed"%string [(Field (Some "currency_id"%string) 248%N (Some "T::CurrencyId"%string) []); (Field (Some "who"%string) 0%N (Some "T::AccountId"%string) []); (Field (Some "amount"%string) 6%N (Some "T::Balance"%string) [])] 0%N ["An account was created with some free balance."%string]); (Variant "DustLost"%string [(Field (Some "currency_id"%string) 248%N (Some "T::CurrencyId"%string) []); (Field (Some "who"%string) 0%N (Some "T::AccountId"%string) []); (Field (Some "amount"%string) 6%N (Some "T::Balance"%string) [])] 1%N ["An account was removed whose balance was non-zero but below"%string; "ExistentialDeposit, resulting in an outright loss."%string]); (Variant "Transfer"%string [(Field (Some "currency_id"%string) 248%N (Some "T::CurrencyId"%string) []); (Field (Some "from"%string) 0%N (Some "T::AccountId"%string) []); (Field (Some "to"%string) 0%N (Some "T::AccountId"%string) []); (Field (Some "amount"%string) 6%N (Some "T::Balance"%string) [])] 2%N ["Transfer succeeded."%string]); (Variant "Reserved"%string [(Field (Some "currency_id"%string) 248%N (Some "T::CurrencyId"%string) []); (Field (Some "who"%string) 0%N (Some "T::AccountId"%string) []); (Field (Some "amount"%string) 6%N (Some "T::Balance"%string) [])] 3%N ["Some balance was reserved (moved from free to reserved)."%string]); (Variant "Unreserved"%string [(Field (Some "currency_id"%string) 248%N (Some "T::CurrencyId"%string) []); (Field (Some "who"%string) 0%N (Some "T::AccountId"%string) []); (Field (Some "amount"%string) 6%N (Some "T::Balance"%string) [])] 4%N ["Some balance was unreserved (moved from reserved to free)."%string]); (Variant "ReserveRepatriated"%string [(Field (Some "currency_id"%string) 248%N (Some "T::CurrencyId"%string) []); (Field (Some "from"%string) 0%N (Some "T::AccountId"%string) []); (Field (Some "to"%string) 0%N (Some "T::AccountId"%string) []); (Field (Some "amount"%string) 6%N (Some "T::Balance"%string) []); (Field (Some "status"%string) 34%N (Some "BalanceStatus"%string) [])] 5%N ["Some reserved balance was repatriated (moved from reserved to"%string; "another account)."%string]); (Variant "BalanceSet"%string [(Field (Some "currency_id"%string) 248%N (Some "T::CurrencyId"%string) []); (Field (Some "who"%string) 0%N (Some "T::AccountId"%string) []); (Field (Some "free"%string) 6%N (Some "T::Balance"%string) []); (Field (Some "reserved"%string) 6%N (Some "T::Balance"%string) [])] 6%N ["A balance was set by root."%string]); (Variant "TotalIssuanceSet"%string [(Field (Some "currency_id"%string) 248%N (Some "T::CurrencyId"%string) []); (Field (Some "amount"%string) 6%N (Some "T::Balance"%string) [])] 7%N ["The total issuance of an currency has been set"%string]); (Variant "Withdrawn"%string [(Field (Some "currency_id"%string) 248%N (Some "T::CurrencyId"%string) []); (Field (Some "who"%string) 0%N (Some "T::AccountId"%string) []); (Field (Some "amount"%string) 6%N (Some "T::Balance"%string) [])] 8%N ["Some balances were withdrawn (e.g. pay for transaction fee)"%string]); (Variant "Slashed"%string [(Field (Some "currency_id"%string) 248%N (Some "T::CurrencyId"%string) []); (Field (Some "who"%string) 0%N (Some "T::AccountId"%string) []); (Field (Some "free_amount"%string) 6%N (Some "T::Balance"%string) []); (Field (Some "reserved_amount"%string) 6%N (Some "T::Balance"%string) [])] 9%N ["Some balances were slashed (e.g. due to mis-behavior)"%string]); (Variant "Deposited"%string [(Field (Some "currency_id"%string) 248%N (Some "T::CurrencyId"%string) []); (Field (Some "who"%string) 0%N (Some "T::AccountId"%string) []); (Field (Some "amount"%string) 6%N (Some "T::Balance"%string) [])] 10%N ["Deposited some balance into an account"%string]); (Variant "LockSet"%string [(Field (Some "lock_id"%string) 143%N (Some "LockIdentifier"%string) []); (Field (Some "currency_id"%string) 248%N (Some "T::CurrencyId"%string) []); (Field (Some "who"%string) 0%N (Some "T::AccountId"%string) []); (Field (Some "amount"%string) 6%N (Some "T::Balance"%string) [])] 11%N ["Some funds are locked"%string]); (Variant "LockRemoved"%string [(Field (Some "lock_id"%string) 143%N (Some "LockIdentifier"%string) []); (Field (Some "currency_id"%string) 248%N (Some "T::CurrencyId"%string) []); (Field (Some "who"%string) 0%N (Some "T::AccountId"%string) [])] 12%N ["Some locked funds were unlocked"%string]); (Variant "Locked"%string [(Field (Some "currency_id"%string) 248%N (Some "T::CurrencyId"%string) []); (Field (Some "who"%string) 0%N (Some "T::AccountId"%string) []); (Field (Some "amount"%string) 6%N (Some "T::Balance"%string) [])] 13%N ["Some free balance was locked."%string]); (Variant "Unlocked"%string [(Field (Some "currency_id"%string) 248%N (Some "T::CurrencyId"%string) []); (Field (Some "who"%string) 0%N (Some "T::AccountId"%string) []); (Field (Some "amount"%string) 6%N (Some "T::Balance"%string) [])] 14%N ["Some locked balance was freed."%string])]) ["
			The [event](https://docs.substrate.io/main-docs/build/events-errors/) emitted
			by this pallet.
			"%string]).
Definition md_t394 : ty := (Ty ["orml_unknown_tokens"%string; "module"%string; "Event"%string] [] (TVariant [(Variant "Deposited"%string [(Field (Some "asset"%string) 160%N (Some "MultiAsset"%string) []); (Field (Some "who"%string) 112%N (Some "MultiLocation"%string) [])] 0%N ["Deposit success."%string]); (Variant "Withdrawn"%string [(Field (Some "asset"%string) 160%N (Some "MultiAsset"%string) []); (Field (Some "who"%string) 112%N (Some "MultiLocation"%string) [])] 1%N ["Withdraw success."%string])]) ["
			The [event](https://docs.substrate.io/main-docs/build/events-errors/) emitted
			by this pallet.
			"%string]).
Definition md_t395 : ty := (Ty ["orml_xcm"%string; "module"%string; "Event"%string] [("T"%string,None)] (TVariant [(Variant "Sent"%string [(Field (Some "to"%string) 112%N (Some "MultiLocation"%string) []); (Field (Some "message"%string) 155%N (Some "Xcm<()>"%string) [])] 0%N ["XCM message sent. \[to, message\]"%string])]) ["
			The [event](https://docs.substrate.io/main-docs/build/events-errors/) emitted
			by this pallet.
			"%string]).
Definition md_t396 : ty := (Ty ["zenlink_protocol"%string; "pallet"%string; "Event"%string] [("T"%string,None)] (TVariant [(Variant "Transferred"%string [(Field None 259%N (Some "T::AssetId"%string) []); (Field None 0%N (Some "T::AccountId"%string) []); (Field None 0%N (Some "T::AccountId"%string) []); (Field None 6%N (Some "AssetBalance"%string) [])] 0%N ["Foreign Asset"%string; "Some assets were transferred. \[asset_id, owner, target, amount\]"%string]); (Variant "Burned"%string [(Field None 259%N (Some "T::AssetId"%string) []); (Field None 0%N (Some "T::AccountId"%string) []); (Field None 6%N (Some "AssetBalance"%string) [])] 1%N ["Some assets were burned. \[asset_id, owner, amount\]"%string]); (Variant "Minted"%string [(Field None 259%N (Some "T::AssetId"%string) []); (Field None 0%N (Some "T::AccountId"%string) []); (Field None 6%N (Some "AssetBalance"%string) [])] 2%N ["Some assets were minted. \[asset_id, owner, amount\]"%string]); (Variant "PairCreated"%string [(Field None 259%N (Some "T::AssetId"%string) []); (Field None 259%N (Some "T::AssetId"%string) [])] 3%N ["Swap"%string; "Create a trading pair. \[asset_0, asset_1\]"%string]); (Variant "LiquidityAdded"%string [(Field None 0%N (Some "T::AccountId"%string) []); (Field None 259%N (Some "T::AssetId"%string) []); (Field None 259%N (Some "T::AssetId"%string) []); (Field None 6%N (Some "AssetBalance"%string) []); (Field None 6%N (Some "AssetBalance"%string) []); (Field None 6%N (Some "AssetBalance"%string) [])] 4%N ["Add liquidity. \[owner, asset_0, asset_1, add_balance_0, add_balance_1,"%string; "mint_balance_lp\]"%string]); (Variant "LiquidityRemoved"%string [(Field None 0%N (Some "T::AccountId"%string) []); (Field None 0%N (Some "T::AccountId"%string) []); (Field None 259%N (Some "T::AssetId"%string) []); (Field None 259%N (Some "T::AssetId"%string) []); (Field None 6%N (Some "AssetBalance"%string) []); (Field None 6%N (Some "AssetBalance"%string) []); (Field None 6%N (Some "AssetBalance"%string) [])] 5%N ["Remove liquidity. \[owner, recipient, asset_0, asset_1, rm_balance_0, rm_balance_1,"%string; "burn_balance_lp\]"%string]); (Variant "AssetSwap"%string [(Field None 0%N (Some "T::AccountId"%string) []); (Field None 0%N (Some "T::AccountId"%string) []); (Field None 260%N (Some "Vec<T::AssetId>"%string) []); (Field None 360%N (Some "Vec<AssetBalance>"%string) [])] 6%N ["Transact in trading \[owner, recipient, swap_path, balances\]"%string]); (Variant "TransferredToParachain"%string [(Field None 259%N (Some "T::AssetId"%string) []); (Field None 0%N (Some "T::AccountId"%string) []); (Field None 77%N (Some "ParaId"%string) []); (Field None 0%N (Some "T::AccountId"%string) []); (Field None 6%N (Some "AssetBalance"%string) []); (Field None 11%N (Some "u64"%string) [])] 7%N ["Transfer by xcm"%string; "Transferred to parachain. \[asset_id, src, para_id, dest, amount, used_weight\]"%string]); (Variant "BootstrapContribute"%string [(Field None 0%N (Some "T::AccountId"%string) []); (Field None 259%N (Some "T::AssetId"%string) []); (Field None 6%N (Some "AssetBalance"%string) []); (Field None 259%N (Some "T::AssetId"%string) []); (Field None 6%N (Some "AssetBalance"%string) [])] 8%N ["Contribute to bootstrap pair. \[who, asset_0, asset_0_contribute, asset_1_contribute\]"%string]); (Variant "BootstrapEnd"%string [(Field None 259%N (Some "T::AssetId"%string) []); (Field None 259%N (Some "T::AssetId"%string) []); (Field None 6%N (Some "AssetBalance"%string) []); (Field None 6%N (Some "AssetBalance"%string) []); (Field None 6%N (Some "AssetBalance"%string) [])] 9%N ["A bootstrap pair end. \[asset_0, asset_1, asset_0_amount, asset_1_amount,"%string; "total_lp_supply]"%string]); (Variant "BootstrapCreated"%string [(Field None 0%N (Some "T::AccountId"%string) []); (Field None 259%N (Some "T::AssetId"%string) []); (Field None 259%N (Some "T::AssetId"%string) []); (Field None 6%N (Some "AssetBalance"%string) []); (Field None 6%N (Some "AssetBalance"%string) []); (Field None 6%N (Some "AssetBalance"%string) []); (Field None 6%N (Some "AssetBalance"%string) []); (Field None 4%N (Some "T::BlockNumber"%string) [])] 10%N ["Create a bootstrap pair. \[bootstrap_pair_account, asset_0, asset_1,"%string; "total_supply_0,total_supply_1, capacity_supply_0,capacity_supply_1, end\]"%string]); (Variant "BootstrapClaim"%string [(Field None 0%N (Some "T::AccountId"%string) []); (Field None 0%N (Some "T::AccountId"%string) []); (Field None 0%N (Some "T::AccountId"%string) []); (Field None 259%N (Some "T::AssetId"%string) []); (Field None 259%N (Some "T::AssetId"%string) []); (Field None 6%N (Some "AssetBalance"%string) []); (Field None 6%N (Some "AssetBalance"%string) []); (Field None 6%N (Some "AssetBalance"%string) [])] 11%N ["Claim a bootstrap pair. \[bootstrap_pair_account, claimer, receiver, asset_0, asset_1,"%string; "asset_0_refund, asset_1_refund, lp_amount\]"%string]); (Variant "BootstrapUpdate"%string [(Field None 0%N (Some "T::AccountId"%string) []); (Field None 259%N (Some "T::AssetId"%string) []); (Field None 259%N (Some "T::AssetId"%string) []); (Field None 6%N (Some "AssetBalance"%string) []); (Field None 6%N (Some "AssetBalance"%string) []); (Field None 6%N (Some "AssetBalance"%string) []); (Field None 6%N (Some "AssetBalance"%string) []); (Field None 4%N (Some "T::BlockNumber"%string) [])] 12%N ["Update a bootstrap pair. \[caller, asset_0, asset_1,"%string; "total_supply_0,total_supply_1, capacity_supply_0,capacity_supply_1\]"%string]); (Variant "BootstrapRefund"%string [(Field None 0%N (Some "T::AccountId"%string) []); (Field None 0%N (Some "T::AccountId"%string) []); (Field None 259%N (Some "T::AssetId"%string) []); (Field None 259%N (Some "T::AssetId"%string) []); (Field None 6%N (Some "AssetBalance"%string) []); (Field None 6%N (Some "AssetBalance"%string) [])] 13%N ["Refund from disable bootstrap pair. \[bootstrap_pair_account, caller, asset_0, asset_1,"%string; "asset_0_refund, asset_1_refund\]"%string]); (Variant "DistributeReward"%string [(Field None 259%N (Some "T::AssetId"%string) []); (Field None 259%N (Some "T::AssetId"%string) []); (Field None 0%N (Some "T::AccountId"%string) []); (Field None 261%N (Some "Vec<(T::AssetId, AssetBalance)>"%string) [])] 14%N ["Bootstrap distribute some rewards to contributors."%string]); (Variant "ChargeReward"%string [(Field None 259%N (Some "T::AssetId"%string) []); (Field None 259%N (Some "T::AssetId"%string) []); (Field None 0%N (Some "T::AccountId"%string) []); (Field None 261%N (Some "Vec<(T::AssetId, AssetBalance)>"%string) [])] 15%N ["Charge reward into a bootstrap."%string]); (Variant "WithdrawReward"%string [(Field None 259%N (Some "T::AssetId"%string) []); (Field None 259%N (Some "T::AssetId"%string) []); (Field None 0%N (Some "T::AccountId"%string) [])] 16%N ["Withdraw all reward from a bootstrap."%string])]) ["
			The [event](https://docs.substrate.io/main-docs/build/events-errors/) emitted
			by this pallet.
			"%string]).
Definition md_t397 : ty := (Ty ["merkle_distributor"%string; "pallet"%string; "Event"%string] [("T"%string,None)] (TVariant [(Variant "Create"%string [(Field None 4%N (Some "T::MerkleDistributorId"%string) []); (Field None 12%N (Some "H256"%string) []); (Field None 6%N (Some "T::Balance"%string) [])] 0%N ["create a merkle distributor. \ [merkle distributor id, merkle tree root, total reward balance]"%string]); (Variant "Claim"%string [(Field None 4%N (Some "T::MerkleDistributorId"%string) []); (Field None 0%N (Some "T::AccountId"%string) []); (Field None 6%N (Some "u128"%string) [])] 1%N ["claim reward. \[merkle distributor id, account, balance]"%string]); (Variant "Withdraw"%string [(Field None 4%N (Some "T::MerkleDistributorId"%string) []); (Field None 0%N (Some "T::AccountId"%string) []); (Field None 6%N (Some "T::Balance"%string) [])] 2%N ["withdraw reward. \ [merkle distributor id, account, balance]"%string]); (Variant "AddToWhiteList"%string [(Field None 0%N (Some "T::AccountId"%string) [])] 3%N ["add account who can create merkle distributor. \ [account]"%string]); (Variant "RemoveFromWhiteList"%string [(Field None 0%N (Some "T::AccountId"%string) [])] 4%N ["remove account from the set who can create merkle distributor. \ [account]"%string])]) ["
			The [event](https://docs.substrate.io/main-docs/build/events-errors/) emitted
			by this pallet.
			"%string]).
Definition md_t398 : ty := (Ty ["bifrost_flexible_fee"%string; "pallet"%string; "Event"%string] [("T"%string,None)] (TVariant [(Variant "FlexibleFeeExchanged"%string [(Field None 248%N (Some "CurrencyIdOf<T>"%string) []); (Field None 6%N (Some "PalletBalanceOf<T>"%string) [])] 0%N []); (Variant "FixedRateFeeExchanged"%string [(Field None 248%N (Some "CurrencyIdOf<T>"%string) []); (Field None 6%N (Some "PalletBalanceOf<T>"%string) [])] 1%N []); (Variant "ExtraFeeDeducted"%string [(Field None 399%N (Some "ExtraFeeName"%string) []); (Field None 248%N (Some "CurrencyIdOf<T>"%string) []); (Field None 6%N (Some "PalletBalanceOf<T>"%string) []); (Field None 6%N (Some "PalletBalanceOf<T>"%string) [])] 2%N [])]) ["
			The [event](https://docs.substrate.io/main-docs/build/events-errors/) emitted
			by this pallet.
			"%string]).
Definition md_t399 : ty := (Ty ["node_primitives"%string; "ExtraFeeName"%string] [] (TVariant [(Variant "SalpContribute"%string [] 0%N []); (Variant "StatemineTransfer"%string [] 1%N []); (Variant "VoteVtoken"%string [] 2%N []); (Variant "VoteRemoveDelegatorVote"%string [] 3%N []); (Variant "NoExtraFee"%string [] 4%N [])]) []).
Definition md_t400 : ty := (Ty ["bifrost_salp"%string; "pallet"%string; "Event"%string] [("T"%string,None)] (TVariant [(Variant "Created"%string [(Field None 4%N (Some "ParaId"%string) [])] 0%N ["Create a new crowdloaning campaign. [fund_index]"%string]); (Variant "Contributing"%string [(Field None 0%N (Some "AccountIdOf<T>"%string) []); (Field None 4%N (Some "ParaId"%string) []); (Field None 6%N (Some "BalanceOf<T>"%string) []); (Field None 1%N (Some "MessageId"%string) [])] 1%N ["Contributing to a crowd sale. [who, fund_index, amount]"%string]); (Variant "Contributed"%string [(Field None 0%N (Some "AccountIdOf<T>"%string) []); (Field None 4%N (Some "ParaId"%string) []); (Field None 6%N (Some "BalanceOf<T>"%string) [])] 2%N ["Contributed to a crowd sale. [who, fund_index, amount]"%string]); (Variant "ContributeFailed"%string [(Field None 0%N (Some "AccountIdOf<T>"%string) []); (Field None 4%N (Some "ParaId"%string) []); (Field None 6%N (Some "BalanceOf<T>"%string) [])] 3%N ["Fail on contribute to crowd sale. [who, fund_index, amount]"%string]); (Variant "Withdrew"%string [(Field None 4%N (Some "ParaId"%string) []); (Field None 6%N (Some "BalanceOf<T>"%string) [])] 4%N ["Withdrew full balance of a contributor. [who, fund_index, amount]"%string]); (Variant "Refunded"%string [(Field None 0%N (Some "AccountIdOf<T>"%string) []); (Field None 4%N (Some "ParaId"%string) []); (Field None 4%N (Some "LeasePeriod"%string) []); (Field None 4%N (Some "LeasePeriod"%string) []); (Field None 6%N (Some "BalanceOf<T>"%string) [])] 5%N ["refund to account. [who, fund_index,value]"%string]); (Variant "AllRefunded"%string [(Field None 4%N (Some "ParaId"%string) [])] 6%N ["all refund"%string]); (Variant "Redeemed"%string [(Field None 0%N (Some "AccountIdOf<T>"%string) []); (Field None 4%N (Some "ParaId"%string) []); (Field None 4%N (Some "LeasePeriod"%string) []); (Field None 4%N (Some "LeasePeriod"%string) []); (Field None 6%N (Some "BalanceOf<T>"%string) [])] 7%N ["redeem to account. [who, fund_index, first_slot, last_slot, value]"%string]); (Variant "Edited"%string [(Field None 4%N (Some "ParaId"%string) [])] 8%N ["Fund is edited. [fund_index]"%string]); (Variant "Dissolved"%string [(Field None 4%N (Some "ParaId"%string) [])] 9%N ["Fund is dissolved. [fund_index]"%string]); (Variant "Unlocked"%string [(Field None 0%N (Some "AccountIdOf<T>"%string) []); (Field None 4%N (Some "ParaId"%string) []); (Field None 6%N (Some "BalanceOf<T>"%string) [])] 10%N ["The vsToken/vsBond was be unlocked. [who, fund_index, value]"%string]); (Variant "AllUnlocked"%string [(Field None 4%N (Some "ParaId"%string) [])] 11%N []); (Variant "Failed"%string [(Field None 4%N (Some "ParaId"%string) [])] 12%N ["Fund status change"%string]); (Variant "Success"%string [(Field None 4%N (Some "ParaId"%string) [])] 13%N []); (Variant "Retired"%string [(Field None 4%N (Some "ParaId"%string) [])] 14%N []); (Variant "End"%string [(Field None 4%N (Some "ParaId"%string) [])] 15%N []); (Variant "Continued"%string [(Field None 4%N (Some "ParaId"%string) []); (Field None 4%N (Some "LeasePeriod"%string) []); (Field None 4%N (Some "LeasePeriod"%string) [])] 16%N []); (Variant "RefundedDissolved"%string [(Field None 4%N (Some "ParaId"%string) []); (Field None 4%N (Some "LeasePeriod"%string) []); (Field None 4%N (Some "LeasePeriod"%string) [])] 17%N []); (Variant "Buyback"%string [(Field None 6%N (Some "BalanceOf<T>"%string) [])] 18%N []); (Variant "VstokenUnlocked"%string [(Field None 0%N (Some "AccountIdOf<T>"%string) [])] 19%N []); (Variant "BuybackByStablePool"%string [(Field (Some "pool_id"%string) 4%N (Some "StableAssetPoolId"%string) []); (Field (Some "currency_id_in"%string) 248%N (Some "CurrencyId"%string) []); (Field (Some "value"%string) 6%N (Some "BalanceOf<T>"%string) [])] 20%N [])]) ["
			The [event](https://docs.substrate.io/main-docs/build/events-errors/) emitted
			by this pallet.
			"%string]).
Definition md_t401 : ty := (Ty ["bifrost_call_switchgear"%string; "pallet"%string; "Event"%string] [("T"%string,None)] (TVariant [(Variant "TransactionSwitchedoff"%string [(Field None 13%N (Some "Vec<u8>"%string) []); (Field None 13%N (Some "Vec<u8>"%string) [])] 0%N ["Switch off transaction . \[pallet_name, function_name\]"%string]); (Variant "TransactionSwitchedOn"%string [(Field None 13%N (Some "Vec<u8>"%string) []); (Field None 13%N (Some "Vec<u8>"%string) [])] 1%N ["Switch on transaction . \[pallet_name, function_name\]"%string]); (Variant "TransferAccountDisabled"%string [(Field None 248%N (Some "CurrencyId"%string) [])] 2%N []); (Variant "TransferAccountEnabled"%string [(Field None 248%N (Some "CurrencyId"%string) [])] 3%N [])]) ["
			The [event](https://docs.substrate.io/main-docs/build/events-errors/) emitted
			by this pallet.
			"%string]).
Definition md_t402 : ty := (Ty ["bifrost_asset_registry"%string; "pallet"%string; "Event"%string] [("T"%string,None)] (TVariant [(Variant "AssetRegistered"%string [(Field (Some "asset_id"%string) 403%N (Some "AssetIds"%string) []); (Field (Some "metadata"%string) 274%N (Some "AssetMetadata<BalanceOf<T>>"%string) [])] 0%N ["The asset registered."%string]); (Variant "AssetUpdated"%string [(Field (Some "asset_id"%string) 403%N (Some "AssetIds"%string) []); (Field (Some "metadata"%string) 274%N (Some "AssetMetadata<BalanceOf<T>>"%string) [])] 1%N ["The asset updated."%string]); (Variant "CurrencyIdRegistered"%string [(Field (Some "currency_id"%string) 248%N (Some "CurrencyId"%string) []); (Field (Some "metadata"%string) 274%N (Some "AssetMetadata<BalanceOf<T>>"%string) [])] 2%N ["The CurrencyId registered."%string]); (Variant "MultiLocationSet"%string [(Field (Some "currency_id"%string) 248%N (Some "CurrencyId"%string) []); (Field (Some "location"%string) 112%N (Some "MultiLocation"%string) []); (Field (Some "weight"%string) 9%N (Some "Weight"%string) [])] 3%N ["MultiLocation Force set."%string])]) ["
			The [event](https://docs.substrate.io/main-docs/build/events-errors/) emitted
			by this pallet.
			"%string]).
Definition md_t403 : ty := (Ty ["node_primitives"%string; "currency"%string; "AssetIds"%string] [] (TVariant [(Variant "ForeignAssetId"%string [(Field None 4%N (Some "ForeignAssetId"%string) [])] 0%N []); (Variant "NativeAssetId"%string [(Field None 248%N (Some "CurrencyId"%string) [])] 1%N [])]) []).
Definition md_t404 : ty := (Ty ["bifrost_vtoken_minting"%string; "pallet"%string; "Event"%string] [("T"%string,None)] (TVariant [(Variant "Minted"%string [(Field (Some "address"%string) 0%N (Some "AccountIdOf<T>"%string) []); (Field (Some "token_id"%string) 248%N (Some "CurrencyIdOf<T>"%string) []); (Field (Some "token_amount"%string) 6%N (Some "BalanceOf<T>"%string) []); (Field (Some "vtoken_amount"%string) 6%N (Some "BalanceOf<T>"%string) []); (Field (Some "fee"%string) 6%N (Some "BalanceOf<T>"%string) []); (Field (Some "remark"%string) 276%N (Some "BoundedVec<u8, ConstU32<32>>"%string) [])] 0%N []); (Variant "Redeemed"%string [(Field (Some "address"%string) 0%N (Some "AccountIdOf<T>"%string) []); (Field (Some "token_id"%string) 248%N (Some "CurrencyIdOf<T>"%string) []); (Field (Some "token_amount"%string) 6%N (Some "BalanceOf<T>"%string) []); (Field (Some "vtoken_amount"%string) 6%N (Some "BalanceOf<T>"%string) []); (Field (Some "fee"%string) 6%N (Some "BalanceOf<T>"%string) [])] 1%N []); (Variant "RedeemSuccess"%string [(Field (Some "unlock_id"%string) 4%N (Some "UnlockId"%string) []); (Field (Some "token_id"%string) 248%N (Some "CurrencyIdOf<T>"%string) []); (Field (Some "to"%string) 0%N (Some "AccountIdOf<T>"%string) []); (Field (Some "token_amount"%string) 6%N (Some "BalanceOf<T>"%string) [])] 2%N []); (Variant "Rebonded"%string [(Field (Some "address"%string) 0%N (Some "AccountIdOf<T>"%string) []); (Field (Some "token_id"%string) 248%N (Some "CurrencyIdOf<T>"%string) []); (Field (Some "token_amount"%string) 6%N (Some "BalanceOf<T>"%string) []); (Field (Some "vtoken_amount"%string) 6%N (Some "BalanceOf<T>"%string) []); (Field (Some "fee"%string) 6%N (Some "BalanceOf<T>"%string) [])] 3%N []); (Variant "RebondedByUnlockId"%string [(Field (Some "address"%string) 0%N (Some "AccountIdOf<T>"%string) []); (Field (Some "token_id"%string) 248%N (Some "CurrencyIdOf<T>"%string) []); (Field (Some "token_amount"%string) 6%N (Some "BalanceOf<T>"%string) []); (Field (Some "vtoken_amount"%string) 6%N (Some "BalanceOf<T>"%string) []); (Field (Some "fee"%string) 6%N (Some "BalanceOf<T>"%string) [])] 4%N []); (Variant "UnlockDurationSet"%string [(Field (Some "token_id"%string) 248%N (Some "CurrencyIdOf<T>"%string) []); (Field (Some "unlock_duration"%string) 277%N (Some "TimeUnit"%string) [])] 5%N []); (Variant "MinimumMintSet"%string [(Field (Some "token_id"%string) 248%N (Some "CurrencyIdOf<T>"%string) []); (Field (Some "amount"%string) 6%N (Some "BalanceOf<T>"%string) [])] 6%N []); (Variant "MinimumRedeemSet"%string [(Field (Some "token_id"%string) 248%N (Some "CurrencyIdOf<T>"%string) []); (Field (Some "amount"%string) 6%N (Some "BalanceOf<T>"%string) [])] 7%N []); (Variant "SupportRebondTokenAdded"%string [(Field (Some "token_id"%string) 248%N (Some "CurrencyIdOf<T>"%string) [])] 8%N []); (Variant "SupportRebondTokenRemoved"%string [(Field (Some "token_id"%string) 248%N (Some "CurrencyIdOf<T>"%string) [])] 9%N []); (Variant "FeeSet"%string [(Field (Some "mint_fee"%string) 278%N (Some "Permill"%string) []); (Field (Some "redeem_fee"%string) 278%N (Some "Permill"%string) [])] 10%N ["Several fees has been set."%string]); (Variant "HookIterationLimitSet"%string [(Field (Some "limit"%string) 4%N (Some "u32"%string) [])] 11%N []); (Variant "UnlockingTotalSet"%string [(Field (Some "token_id"%string) 248%N (Some "CurrencyIdOf<T>"%string) []); (Field (Some "amount"%string) 6%N (Some "BalanceOf<T>"%string) [])] 12%N []); (Variant "MinTimeUnitSet"%string [(Field (Some "token_id"%string) 248%N (Some "CurrencyIdOf<T>"%string) []); (Field (Some "time_unit"%string) 277%N (Some "TimeUnit"%string) [])] 13%N []); (Variant "FastRedeemFailed"%string [(Field (Some "err"%string) 25%N (Some "DispatchError"%string) [])] 14%N [])]) ["
			The [event](https://docs.substrate.io/main-docs/build/events-errors/) emitted
			by this pallet.
			"%string]).
Definition md_t405 : ty := (Ty ["bifrost_slp"%string; "pallet"%string; "Event"%string] [("T"%string,None)] (TVariant [(Variant "DelegatorInitialized"%string [(Field (Some "currency_id"%string) 248%N (Some "CurrencyId"%string) []); (Field (Some "delegator_id"%string) 112%N (Some "MultiLocation"%string) [])] 0%N []); (Variant "DelegatorBonded"%string [(Field (Some "currency_id"%string) 248%N (Some "CurrencyId"%string) []); (Field (Some "delegator_id"%string) 112%N (Some "MultiLocation"%string) []); (Field (Some "bonded_amount"%string) 83%N (Some "BalanceOf<T>"%string) []); (Field (Some "query_id"%string) 10%N (Some "QueryId"%string) []); (Field (Some "query_id_hash"%string) 12%N (Some "Hash<T>"%string) []); (Field (Some "validator"%string) 174%N (Some "Option<MultiLocation>"%string) [])] 1%N []); (Variant "DelegatorBondExtra"%string [(Field (Some "currency_id"%string) 248%N (Some "CurrencyId"%string) []); (Field (Some "delegator_id"%string) 112%N (Some "MultiLocation"%string) []); (Field (Some "extra_bonded_amount"%string) 83%N (Some "BalanceOf<T>"%string) []); (Field (Some "query_id"%string) 10%N (Some "QueryId"%string) []); (Field (Some "query_id_hash"%string) 12%N (Some "Hash<T>"%string) []); (Field (Some "validator"%string) 174%N (Some "Option<MultiLocation>"%string) [])] 2%N []); (Variant "DelegatorUnbond"%string [(Field (Some "currency_id"%string) 248%N (Some "CurrencyId"%string) []); (Field (Some "delegator_id"%string) 112%N (Some "MultiLocation"%string) []); (Field (Some "unbond_amount"%string) 83%N (Some "BalanceOf<T>"%string) []); (Field (Some "query_id"%string) 10%N (Some "QueryId"%string) []); (Field (Some "query_id_hash"%string) 12%N (Some "Hash<T>"%string) []); (Field (Some "validator"%string) 174%N (Some "Option<MultiLocation>"%string) [])] 3%N []); (Variant "DelegatorUnbondAll"%string [(Field (Some "currency_id"%string) 248%N (Some "CurrencyId"%string) []); (Field (Some "delegator_id"%string) 112%N (Some "MultiLocation"%string) []); (Field (Some "query_id"%string) 10%N (Some "QueryId"%string) []); (Field (Some "query_id_hash"%string) 12%N (Some "Hash<T>"%string) [])] 4%N []); (Variant "DelegatorRebond"%string [(Field (Some "currency_id"%string) 248%N (Some "CurrencyId"%string) []); (Field (Some "delegator_id"%string) 112%N (Some "MultiLocation"%string) []); (Field (Some "rebond_amount"%string) 281%N (Some "Option<BalanceOf<T>>"%string) []); (Field (Some "query_id"%string) 10%N (Some "QueryId"%string) []); (Field (Some "query_id_hash"%string) 12%N (Some "Hash<T>"%string) []); (Field (Some "validator"%string) 174%N (Some "Option<MultiLocation>"%string) [])] 5%N []); (Variant "Delegated"%string [(Field (Some "currency_id"%string) 248%N (Some "CurrencyId"%string) []); (Field (Some "delegator_id"%string) 112%N (Some "MultiLocation"%string) []); (Field (Some "targets"%string) 283%N (Some "Option<Vec<MultiLocation>>"%string) []); (Field (Some "query_id"%string) 10%N (Some "QueryId"%string) []); (Field (Some "query_id_hash"%string) 12%N (Some "Hash<T>"%string) [])] 6%N []); (Variant "Undelegated"%string [(Field (Some "currency_id"%string) 248%N (Some "CurrencyId"%string) []); (Field (Some "delegator_id"%string) 112%N (Some "MultiLocation"%string) []); (Field (Some "targets"%string) 282%N (Some "Vec<MultiLocation>"%string) []); (Field (Some "query_id"%string) 10%N (Some "QueryId"%string) []); (Field (Some "query_id_hash"%string) 12%N (Some "Hash<T>"%string) [])] 7%N []); (Variant "Payout"%string [(Field (Some "currency_id"%string) 248%N (Some "CurrencyId"%string) []); (Field (Some "validator"%string) 112%N (Some "MultiLocation"%string) []); (Field (Some "time_unit"%string) 284%N (Some "Option<TimeUnit>"%string) [])] 8%N []); (Variant "Liquidize"%string [(Field (Some "currency_id"%string) 248%N (Some "CurrencyId"%string) []); (Field (Some "delegator_id"%string) 112%N (Some "MultiLocation"%string) []); (Field (Some "time_unit"%string) 284%N (Some "Option<TimeUnit>"%string) []); (Field (Some "query_id"%string) 10%N (Some "QueryId"%string) []); (Field (Some "query_id_hash"%string) 12%N (Some "Hash<T>"%string) []); (Field (Some "amount"%string) 281%N (Some "Option<BalanceOf<T>>"%string) [])] 9%N []); (Variant "Chill"%string [(Field (Some "currency_id"%string) 248%N (Some "CurrencyId"%string) []); (Field (Some "delegator_id"%string) 112%N (Some "MultiLocation"%string) []); (Field (Some "query_id"%string) 10%N (Some "QueryId"%string) []); (Field (Some "query_id_hash"%string) 12%N (Some "Hash<T>"%string) [])] 10%N []); (Variant "TransferBack"%string [(Field (Some "currency_id"%string) 248%N (Some "CurrencyId"%string) []); (Field (Some "from"%string) 112%N (Some "MultiLocation"%string) []); (Field (Some "to"%string) 112%N (Some "MultiLocation"%string) []); (Field (Some "amount"%string) 83%N (Some "BalanceOf<T>"%string) [])] 11%N []); (Variant "TransferTo"%string [(Field (Some "currency_id"%string) 248%N (Some "CurrencyId"%string) []); (Field (Some "from"%string) 112%N (Some "MultiLocation"%string) []); (Field (Some "to"%string) 112%N (Some "MultiLocation"%string) []); (Field (Some "amount"%string) 83%N (Some "BalanceOf<T>"%string) [])] 12%N []); (Variant "ConvertAsset"%string [(Field (Some "currency_id"%string) 248%N (Some "CurrencyId"%string) []); (Field (Some "who"%string) 112%N (Some "MultiLocation"%string) []); (Field (Some "amount"%string) 83%N (Some "BalanceOf<T>"%string) [])] 13%N []); (Variant "DelegatorAdded"%string [(Field (Some "currency_id"%string) 248%N (Some "CurrencyId"%string) []); (Field (Some "index"%string) 287%N (Some "u16"%string) []); (Field (Some "delegator_id"%string) 112%N (Some "MultiLocation"%string) [])] 14%N []); (Variant "DelegatorRemoved"%string [(Field (Some "currency_id"%string) 248%N (Some "CurrencyId"%string) []); (Field (Some "delegator_id"%string) 112%N (Some "MultiLocation"%string) [])] 15%N []); (Variant "ValidatorsAdded"%string [(Field (Some "currency_id"%string) 248%N (Some "CurrencyId"%string) []); (Field (Some "validator_id"%string) 112%N (Some "MultiLocation"%string) [])] 16%N []); (Variant "ValidatorsRemoved"%string [(Field (Some "currency_id"%string) 248%N (Some "CurrencyId"%string) []); (Field (Some "validator_id"%string) 112%N (Some "MultiLocation"%string) [])] 17%N []); (Variant "Refund"%string [(Field (Some "currency_id"%string) 248%N (Some "CurrencyId"%string) []); (Field (Some "time_unit"%string) 277%N (Some "TimeUnit"%string) []); (Field (Some "index"%string) 66%N (Some "u32"%string) []); (Field (Some "amount"%string) 83%N (Some "BalanceOf<T>"%string) [])] 18%N []); (Variant "FundMoveFromExitToEntrance"%string [(Field (Some "currency_id"%string) 248%N (Some "CurrencyId"%string) []); (Field (Some "amount"%string) 83%N (Some "BalanceOf<T>"%string) [])] 19%N []); (Variant "TimeUnitUpdated"%string [(Field (Some "currency_id"%string) 248%N (Some "CurrencyId"%string) []); (Field (Some "old"%string) 284%N (Some "Option<TimeUnit>"%string) []); (Field (Some "new"%string) 277%N (Some "TimeUnit"%string) [])] 20%N []); (Variant "PoolTokenIncreased"%string [(Field (Some "currency_id"%string) 248%N (Some "CurrencyId"%string) []); (Field (Some "amount"%string) 83%N (Some "BalanceOf<T>"%string) [])] 21%N []); (Variant "HostingFeeCharged"%string [(Field (Some "currency_id"%string) 248%N (Some "CurrencyId"%string) []); (Field (Some "amount"%string) 83%N (Some "BalanceOf<T>"%string) [])] 22%N []); (Variant "PoolTokenDecreased"%string [(Field (Some "currency_id"%string) 248%N (Some "CurrencyId"%string) []); (Field (Some "amount"%string) 83%N (Some "BalanceOf<T>"%string) [])] 23%N []); (Variant "FeeSupplemented"%string [(Field (Some "currency_id"%string) 248%N (Some "CurrencyId"%string) []); (Field (Some "amount"%string) 83%N (Some "BalanceOf<T>"%string) []); (Field (Some "from"%string) 112%N (Some "MultiLocation"%string) []); (Field (Some "to"%string) 112%N (Some "MultiLocation"%string) [])] 24%N []); (Variant "ValidatorsByDelegatorSet"%string [(Field (Some "currency_id"%string) 248%N (Some "CurrencyId"%string) []); (Field (Some "validators_list"%string) 282%N (Some "Vec<MultiLocation>"%string) []); (Field (Some "delegator_id"%string) 112%N (Some "MultiLocation"%string) [])] 25%N []); (Variant "OperateOriginSet"%string [(Field (Some "currency_id"%string) 248%N (Some "CurrencyId"%string) []); (Field (Some "operator"%string) 94%N (Some "Option<AccountIdOf<T>>"%string) [])] 26%N []); (Variant "FeeSourceSet"%string [(Field (Some "currency_id"%string) 248%N (Some "CurrencyId"%string) []); (Field (Some "who_and_fee"%string) 285%N (Some "Option<(MultiLocation, BalanceOf<T>)>"%string) [])] 27%N []); (Variant "DelegatorLedgerSet"%string [(Field (Some "currency_id"%string) 248%N (Some "CurrencyId"%string) []); (Field (Some "delegator"%string) 112%N (Some "MultiLocation"%string) []); (Field (Some "ledger"%string) 288%N (Some "Option<Ledger<BalanceOf<T>>>"%string) [])] 28%N []); (Variant "DelegatorLedgerQueryResponseConfirmed"%string [(Field (Some "query_id"%string) 10%N (Some "QueryId"%string) []); (Field (Some "entry"%string) 406%N (Some "LedgerUpdateEntry<BalanceOf<T>>"%string) [])] 29%N []); (Variant "DelegatorLedgerQueryResponseFailed"%string [(Field (Some "query_id"%string) 10%N (Some "QueryId"%string) [])] 30%N []); (Variant "ValidatorsByDelegatorQueryResponseConfirmed"%string [(Field (Some "query_id"%string) 10%N (Some "QueryId"%string) []); (Field (Some "entry"%string) 411%N (Some "ValidatorsByDelegatorUpdateEntry"%string) [])] 31%N []); (Variant "ValidatorsByDelegatorQueryResponseFailed"%string [(Field (Some "query_id"%string) 10%N (Some "QueryId"%string) [])] 32%N []); (Variant "MinimumsMaximumsSet"%string [(Field (Some "currency_id"%string) 248%N (Some "CurrencyId"%string) []); (Field (Some "minimums_and_maximums"%string) 307%N (Some "Option<MinimumsMaximums<BalanceOf<T>>>"%string) [])] 33%N []); (Variant "CurrencyDelaysSet"%string [(Field (Some "currency_id"%string) 248%N (Some "CurrencyId"%string) []); (Field (Some "delays"%string) 309%N (Some "Option<Delays>"%string) [])] 34%N []); (Variant "HostingFeesSet"%string [(Field (Some "currency_id"%string) 248%N (Some "CurrencyId"%string) []); (Field (Some "fees"%string) 311%N (Some "Option<(Permill, MultiLocation)>"%string) [])] 35%N []); (Variant "CurrencyTuneExchangeRateLimitSet"%string [(Field (Some "currency_id"%string) 248%N (Some "CurrencyId"%string) []); (Field (Some "tune_exchange_rate_limit"%string) 313%N (Some "Option<(u32, Permill)>"%string) [])] 36%N []); (Variant "OngoingTimeUnitUpdateIntervalSet"%string [(Field (Some "currency_id"%string) 248%N (Some "CurrencyId"%string) []); (Field (Some "interval"%string) 91%N (Some "Option<BlockNumberFor<T>>"%string) [])] 37%N []); (Variant "SupplementFeeAccountWhitelistAdded"%string [(Field (Some "currency_id"%string) 248%N (Some "CurrencyId"%string) []); (Field (Some "who"%string) 112%N (Some "MultiLocation"%string) [])] 38%N []); (Variant "SupplementFeeAccountWhitelistRemoved"%string [(Field (Some "currency_id"%string) 248%N (Some "CurrencyId"%string) []); (Field (Some "who"%string) 112%N (Some "MultiLocation"%string) [])] 39%N []); (Variant "ValidatorsReset"%string [(Field (Some "currency_id"%string) 248%N (Some "CurrencyId"%string) []); (Field (Some "validator_list"%string) 282%N (Some "Vec<MultiLocation>"%string) [])] 40%N []); (Variant "ValidatorBoostListSet"%string [(Field (Some "currency_id"%string) 248%N (Some "CurrencyId"%string) []); (Field (Some "validator_boost_list"%string) 413%N (Some "Vec<(MultiLocation, BlockNumberFor<T>)>"%string) [])] 41%N []); (Variant "ValidatorBoostListAdded"%string [(Field (Some "currency_id"%string) 248%N (Some "CurrencyId"%string) []); (Field (Some "who"%string) 112%N (Some "MultiLocation"%string) []); (Field (Some "due_block_number"%string) 4%N (Some "BlockNumberFor<T>"%string) [])] 42%N []); (Variant "RemovedFromBoostList"%string [(Field (Some "currency_id"%string) 248%N (Some "CurrencyId"%string) []); (Field (Some "who"%string) 112%N (Some "MultiLocation"%string) [])] 43%N [])]) ["
			The [event](https://docs.substrate.io/main-docs/build/events-errors/) emitted
			by this pallet.
			"%string]).
Definition md_t406 : ty := (Ty ["bifrost_slp"%string; "primitives"%string; "LedgerUpdateEntry"%string] [("Balance"%string,(Some 6%N))] (TVariant [(Variant "Substrate"%string [(Field None 407%N (Some "SubstrateLedgerUpdateEntry<Balance>"%string) [])] 0%N []); (Variant "Moonbeam"%string [(Field None 409%N (Some "MoonbeamLedgerUpdateEntry<Balance>"%string) [])] 1%N []); (Variant "ParachainStaking"%string [(Field None 409%N (Some "MoonbeamLedgerUpdateEntry<Balance>"%string) [])] 2%N [])]) []).
Definition md_t407 : ty := (Ty ["bifrost_slp"%string; "primitives"%string; "polkadot_primitives"%string; "SubstrateLedgerUpdateEntry"%string] [("Balance"%string,(Some 6%N))] (TComposite [(Field (Some "currency_id"%string) 248%N (Some "CurrencyId"%string) []); (Field (Some "delegator_id"%string) 112%N (Some "MultiLocation"%string) []); (Field (Some "update_operation"%string) 408%N (Some "SubstrateLedgerUpdateOperation"%string) []); (Field (Some "amount"%string) 83%N (Some "Balance"%string) []); (Field (Some "unlock_time"%string) 284%N (Some "Option<TimeUnit>"%string) [])]) []).
Definition md_t408 : ty := (Ty ["bifrost_slp"%string; "primitives"%string; "polkadot_primitives"%string; "SubstrateLedgerUpdateOperation"%string] [] (TVariant [(Variant "Bond"%string [] 0%N []); (Variant "Unlock"%string [] 1%N []); (Variant "Rebond"%string [] 2%N []); (Variant "Liquidize"%string [] 3%N [])]) []).
Definition md_t409 : ty := (Ty ["bifrost_slp"%string; "primitives"%string; "moonbeam_primitives"%string; "MoonbeamLedgerUpdateEntry"%string] [("Balance"%string,(Some 6%N))] (TComposite [(Field (Some "currency_id"%string) 248%N (Some "CurrencyId"%string) []); (Field (Some "delegator_id"%string) 112%N (Some "MultiLocation"%string) []); (Field (Some "validator_id"%string) 174%N (Some "Option<MultiLocation>"%string) []); (Field (Some "update_operation"%string) 410%N (Some "MoonbeamLedgerUpdateOperation"%string) []); (Field (Some "amount"%string) 83%N (Some "Balance"%string) []); (Field (Some "unlock_time"%string) 284%N (Some "Option<TimeUnit>"%string) [])]) []).
Definition md_t410 : ty := (Ty ["bifrost_slp"%string; "primitives"%string; "moonbeam_primitives"%string; "MoonbeamLedgerUpdateOperation"%string] [] (TVariant [(Variant "Bond"%string [] 0%N []); (Variant "BondLess"%string [] 1%N []); (Variant "Revoke"%string [] 2%N []); (Variant "CancelRequest"%string [] 3%N []); (Variant "LeaveDelegator"%string [] 4%N []); (Variant "CancelLeave"%string [] 5%N []); (Variant "ExecuteLeave"%string [] 6%N []); (Variant "ExecuteRequest"%string [] 7%N [])]) []).
Definition md_t411 : ty := (Ty ["bifrost_slp"%string; "primitives"%string; "ValidatorsByDelegatorUpdateEntry"%string] [] (TVariant [(Variant "Substrate"%string [(Field None 412%N (Some "SubstrateValidatorsByDelegatorUpdateEntry"%string) [])] 0%N [])]) []).
Definition md_t412 : ty := (Ty ["bifrost_slp"%string; "primitives"%string; "polkadot_primitives"%string; "SubstrateValidatorsByDelegatorUpdateEntry"%string] [] (TComposite [(Field (Some "currency_id"%string) 248%N (Some "CurrencyId"%string) []); (Field (Some "delegator_id"%string) 112%N (Some "MultiLocation"%string) []); (Field (Some "validators"%string) 282%N (Some "Vec<MultiLocation>"%string) [])]) []).
Definition md_t413 : ty := (Ty [] [] (TSequence 414%N) []).
Definition md_t414 : ty := (Ty [] [] (TTuple [112%N; 4%N]) []).
Definition md_t415 : ty := (Ty ["xcm_interface"%string; "pallet"%string; "Event"%string] [("T"%string,None)] (TVariant [(Variant "XcmDestWeightAndFeeUpdated"%string [(Field None 318%N (Some "XcmOperationType"%string) []); (Field None 248%N (Some "CurrencyIdOf<T>"%string) []); (Field None 9%N (Some "Weight"%string) []); (Field None 6%N (Some "BalanceOf<T>"%string) [])] 0%N []); (Variant "TransferredStatemineMultiAsset"%string [(Field None 0%N (Some "AccountIdOf<T>"%string) []); (Field None 6%N (Some "BalanceOf<T>"%string) [])] 1%N [])]) ["
			The [event](https://docs.substrate.io/main-docs/build/events-errors/) emitted
			by this pallet.
			"%string]).
Definition md_t416 : ty := (Ty ["bifrost_vstoken_conversion"%string; "pallet"%string; "Event"%string] [("T"%string,None)] (TVariant [(Variant "VsbondConvertToVsksm"%string [(Field (Some "address"%string) 0%N (Some "AccountIdOf<T>"%string) []); (Field (Some "currency_id"%string) 248%N (Some "CurrencyIdOf<T>"%string) []); (Field (Some "vsbond_amount"%string) 6%N (Some "BalanceOf<T>"%string) []); (Field (Some "vsksm_amount"%string) 6%N (Some "BalanceOf<T>"%string) [])] 0%N []); (Variant "VsksmConvertToVsbond"%string [(Field (Some "address"%string) 0%N (Some "AccountIdOf<T>"%string) []); (Field (Some "currency_id"%string) 248%N (Some "CurrencyIdOf<T>"%string) []); (Field (Some "vsbond_amount"%string) 6%N (Some "BalanceOf<T>"%string) []); (Field (Some "vsksm_amount"%string) 6%N (Some "BalanceOf<T>"%string) [])] 1%N []); (Variant "VsbondConvertToVsdot"%string [(Field (Some "address"%string) 0%N (Some "AccountIdOf<T>"%string) []); (Field (Some "currency_id"%string) 248%N (Some "CurrencyIdOf<T>"%string) []); (Field (Some "vsbond_amount"%string) 6%N (Some "BalanceOf<T>"%string) []); (Field (Some "vsdot_amount"%string) 6%N (Some "BalanceOf<T>"%string) [])] 2%N []); (Variant "VsdotConvertToVsbond"%string [(Field (Some "address"%string) 0%N (Some "AccountIdOf<T>"%string) []); (Field (Some "currency_id"%string) 248%N (Some "CurrencyIdOf<T>"%string) []); (Field (Some "vsbond_amount"%string) 6%N (Some "BalanceOf<T>"%string) []); (Field (Some "vsdot_amount"%string) 6%N (Some "BalanceOf<T>"%string) [])] 3%N []); (Variant "VsbondConvertToVstoken"%string [(Field (Some "address"%string) 0%N (Some "AccountIdOf<T>"%string) []); (Field (Some "currency_id"%string) 248%N (Some "CurrencyIdOf<T>"%string) []); (Field (Some "vsbond_amount"%string) 6%N (Some "BalanceOf<T>"%string) []); (Field (Some "vstoken_amount"%string) 6%N (Some "BalanceOf<T>"%string) [])] 4%N []); (Variant "VstokenConvertToVsbond"%string [(Field (Some "address"%string) 0%N (Some "AccountIdOf<T>"%string) []); (Field (Some "currency_id"%string) 248%N (Some "CurrencyIdOf<T>"%string) []); (Field (Some "vsbond_amount"%string) 6%N (Some "BalanceOf<T>"%string) []); (Field (Some "vstoken_amount"%string) 6%N (Some "BalanceOf<T>"%string) [])] 5%N []); (Variant "ExchangeFeeSet"%string [(Field (Some "exchange_fee"%string) 320%N (Some "VstokenConversionExchangeFee<BalanceOf<T>>"%string) [])] 6%N []); (Variant "ExchangeRateSet"%string [(Field (Some "lease"%string) 321%N (Some "i32"%string) []); (Field (Some "exchange_rate"%string) 322%N (Some "VstokenConversionExchangeRate"%string) [])] 7%N []); (Variant "RelaychainLeaseSet"%string [(Field (Some "lease"%string) 4%N (Some "u32"%string) [])] 8%N [])]) ["
			The [event](https://docs.substrate.io/main-docs/build/events-errors/) emitted
			by this pallet.
			"%string]).
Definition md_t417 : ty := (Ty ["bifrost_farming"%string; "pallet"%string; "Event"%string] [("T"%string,None)] (TVariant [(Variant "FarmingPoolCreated"%string [(Field (Some "pid"%string) 4%N (Some "PoolId"%string) [])] 0%N []); (Variant "FarmingPoolReset"%string [(Field (Some "pid"%string) 4%N (Some "PoolId"%string) [])] 1%N []); (Variant "FarmingPoolClosed"%string [(Field (Some "pid"%string) 4%N (Some "PoolId"%string) [])] 2%N []); (Variant "FarmingPoolKilled"%string [(Field (Some "pid"%string) 4%N (Some "PoolId"%string) [])] 3%N []); (Variant "FarmingPoolEdited"%string [(Field (Some "pid"%string) 4%N (Some "PoolId"%string) [])] 4%N []); (Variant "Charged"%string [(Field (Some "who"%string) 0%N (Some "AccountIdOf<T>"%string) []); (Field (Some "pid"%string) 4%N (Some "PoolId"%string) []); (Field (Some "rewards"%string) 251%N (Some "Vec<(CurrencyIdOf<T>, BalanceOf<T>)>"%string) [])] 5%N []); (Variant "Deposited"%string [(Field (Some "who"%string) 0%N (Some "AccountIdOf<T>"%string) []); (Field (Some "pid"%string) 4%N (Some "PoolId"%string) []); (Field (Some "add_value"%string) 6%N (Some "BalanceOf<T>"%string) []); (Field (Some "gauge_info"%string) 330%N (Some "Option<(BalanceOf<T>, BlockNumberFor<T>)>"%string) [])] 6%N []); (Variant "Withdrawn"%string [(Field (Some "who"%string) 0%N (Some "AccountIdOf<T>"%string) []); (Field (Some "pid"%string) 4%N (Some "PoolId"%string) []); (Field (Some "remove_value"%string) 281%N (Some "Option<BalanceOf<T>>"%string) [])] 7%N []); (Variant "Claimed"%string [(Field (Some "who"%string) 0%N (Some "AccountIdOf<T>"%string) []); (Field (Some "pid"%string) 4%N (Some "PoolId"%string) [])] 8%N []); (Variant "WithdrawClaimed"%string [(Field (Some "who"%string) 0%N (Some "AccountIdOf<T>"%string) []); (Field (Some "pid"%string) 4%N (Some "PoolId"%string) [])] 9%N []); (Variant "GaugeWithdrawn"%string [(Field (Some "who"%string) 0%N (Some "AccountIdOf<T>"%string) []); (Field (Some "gid"%string) 4%N (Some "PoolId"%string) [])] 10%N []); (Variant "AllForceGaugeClaimed"%string [(Field (Some "gid"%string) 4%N (Some "PoolId"%string) [])] 11%N []); (Variant "PartiallyForceGaugeClaimed"%string [(Field (Some "gid"%string) 4%N (Some "PoolId"%string) [])] 12%N []); (Variant "AllRetired"%string [(Field (Some "pid"%string) 4%N (Some "PoolId"%string) [])] 13%N []); (Variant "PartiallyRetired"%string [(Field (Some "pid"%string) 4%N (Some "PoolId"%string) [])] 14%N []); (Variant "RetireLimitSet"%string [(Field (Some "limit"%string) 4%N (Some "u32"%string) [])] 15%N []); (Variant "RoundEnd"%string [(Field (Some "total_votes"%string) 6%N (Some "BalanceOf<T>"%string) []); (Field (Some "start_round"%string) 4%N (Some "BlockNumberFor<T>"%string) []); (Field (Some "end_round"%string) 4%N (Some "BlockNumberFor<T>"%string) [])] 16%N []); (Variant "RoundStartError"%string [(Field (Some "info"%string) 25%N (Some "DispatchError"%string) [])] 17%N []); (Variant "RoundStart"%string [(Field (Some "round_length"%string) 4%N (Some "BlockNumberFor<T>"%string) [])] 18%N []); (Variant "Voted"%string [(Field (Some "who"%string) 0%N (Some "AccountIdOf<T>"%string) []); (Field (Some "vote_list"%string) 335%N (Some "Vec<(PoolId, Percent)>"%string) [])] 19%N []); (Variant "BoostCharged"%string [(Field (Some "who"%string) 0%N (Some "AccountIdOf<T>"%string) []); (Field (Some "rewards"%string) 251%N (Some "Vec<(CurrencyIdOf<T>, BalanceOf<T>)>"%string) [])] 20%N [])]) ["
			The [event](https://docs.substrate.io/main-docs/build/events-errors/) emitted
			by this pallet.
			"%string]).
Definition md_t418 : ty := (Ty ["bifrost_system_staking"%string; "pallet"%string; "Event"%string] [("T"%string,None)] (TVariant [(Variant "NewRound"%string [(Field (Some "current"%string) 4%N (Some "RoundIndex"%string) []); (Field (Some "first"%string) 4%N (Some "T::BlockNumber"%string) []); (Field (Some "length"%string) 4%N (Some "u32"%string) [])] 0%N []); (Variant "TokenConfigChanged"%string [(Field (Some "token"%string) 248%N (Some "CurrencyIdOf<T>"%string) []); (Field (Some "exec_delay"%string) 4%N (Some "u32"%string) []); (Field (Some "system_stakable_farming_rate"%string) 278%N (Some "Permill"%string) []); (Field (Some "add_or_sub"%string) 45%N (Some "bool"%string) []); (Field (Some "system_stakable_base"%string) 6%N (Some "BalanceOf<T>"%string) []); (Field (Some "farming_poolids"%string) 334%N (Some "Vec<PoolId>"%string) []); (Field (Some "lptoken_rates"%string) 342%N (Some "Vec<Perbill>"%string) [])] 1%N []); (Variant "DepositFailed"%string [(Field (Some "token"%string) 248%N (Some "CurrencyIdOf<T>"%string) []); (Field (Some "amount"%string) 6%N (Some "BalanceOf<T>"%string) []); (Field (Some "farming_staking_amount"%string) 6%N (Some "BalanceOf<T>"%string) []); (Field (Some "system_stakable_amount"%string) 6%N (Some "BalanceOf<T>"%string) []); (Field (Some "system_shadow_amount"%string) 6%N (Some "BalanceOf<T>"%string) []); (Field (Some "pending_redeem_amount"%string) 6%N (Some "BalanceOf<T>"%string) [])] 2%N []); (Variant "MintSuccess"%string [(Field (Some "token"%string) 248%N (Some "CurrencyIdOf<T>"%string) []); (Field (Some "amount"%string) 6%N (Some "BalanceOf<T>"%string) []); (Field (Some "farming_staking_amount"%string) 6%N (Some "BalanceOf<T>"%string) []); (Field (Some "system_stakable_amount"%string) 6%N (Some "BalanceOf<T>"%string) []); (Field (Some "system_shadow_amount"%string) 6%N (Some "BalanceOf<T>"%string) []); (Field (Some "pending_redeem_amount"%string) 6%N (Some "BalanceOf<T>"%string) [])] 3%N []); (Variant "MintFailed"%string [(Field (Some "token"%string) 248%N (Some "CurrencyIdOf<T>"%string) []); (Field (Some "amount"%string) 6%N (Some "BalanceOf<T>"%string) []); (Field (Some "farming_staking_amount"%string) 6%N (Some "BalanceOf<T>"%string) []); (Field (Some "system_stakable_amount"%string) 6%N (Some "BalanceOf<T>"%string) []); (Field (Some "system_shadow_amount"%string) 6%N (Some "BalanceOf<T>"%string) []); (Field (Some "pending_redeem_amount"%string) 6%N (Some "BalanceOf<T>"%string) [])] 4%N []); (Variant "WithdrawSuccess"%string [(Field (Some "token"%string) 248%N (Some "CurrencyIdOf<T>"%string) []); (Field (Some "amount"%string) 6%N (Some "BalanceOf<T>"%string) []); (Field (Some "farming_staking_amount"%string) 6%N (Some "BalanceOf<T>"%string) []); (Field (Some "system_stakable_amount"%string) 6%N (Some "BalanceOf<T>"%string) []); (Field (Some "system_shadow_amount"%string) 6%N (Some "BalanceOf<T>"%string) []); (Field (Some "pending_redeem_amount"%string) 6%N (Some "BalanceOf<T>"%string) [])] 5%N []); (Variant "WithdrawFailed"%string [(Field (Some "token"%string) 248%N (Some "CurrencyIdOf<T>"%string) []); (Field (Some "amount"%string) 6%N (Some "BalanceOf<T>"%string) []); (Field (Some "farming_staking_amount"%string) 6%N (Some "BalanceOf<T>"%string) []); (Field (Some "system_stakable_amount"%string) 6%N (Some "BalanceOf<T>"%string) []); (Field (Some "system_shadow_amount"%string) 6%N (Some "BalanceOf<T>"%string) []); (Field (Some "pending_redeem_amount"%string) 6%N (Some "BalanceOf<T>"%string) [])] 6%N []); (Variant "Redeemed"%string [(Field (Some "token"%string) 248%N (Some "CurrencyIdOf<T>"%string) []); (Field (Some "amount"%string) 6%N (Some "BalanceOf<T>"%string) []); (Field (Some "farming_staking_amount"%string) 6%N (Some "BalanceOf<T>"%string) []); (Field (Some "system_stakable_amount"%string) 6%N (Some "BalanceOf<T>"%string) []); (Field (Some "system_shadow_amount"%string) 6%N (Some "BalanceOf<T>"%string) []); (Field (Some "pending_redeem_amount"%string) 6%N (Some "BalanceOf<T>"%string) [])] 7%N []); (Variant "RedeemFailed"%string [(Field (Some "token"%string) 248%N (Some "CurrencyIdOf<T>"%string) []); (Field (Some "amount"%string) 6%N (Some "BalanceOf<T>"%string) []); (Field (Some "farming_staking_amount"%string) 6%N (Some "BalanceOf<T>"%string) []); (Field (Some "system_stakable_amount"%string) 6%N (Some "BalanceOf<T>"%string) []); (Field (Some "system_shadow_amount"%string) 6%N (Some "BalanceOf<T>"%string) []); (Field (Some "pending_redeem_amount"%string) 6%N (Some "BalanceOf<T>"%string) [])] 8%N []); (Variant "VtokenNotFound"%string [(Field (Some "token"%string) 248%N (Some "CurrencyIdOf<T>"%string) [])] 9%N []); (Variant "TokenInfoRefreshed"%string [(Field (Some "token"%string) 248%N (Some "CurrencyIdOf<T>"%string) [])] 10%N []); (Variant "Payout"%string [(Field (Some "token"%string) 248%N (Some "CurrencyIdOf<T>"%string) []); (Field (Some "vtoken"%string) 248%N (Some "CurrencyIdOf<T>"%string) []); (Field (Some "from"%string) 0%N (Some "AccountIdOf<T>"%string) []); (Field (Some "to"%string) 0%N (Some "AccountIdOf<T>"%string) []); (Field (Some "amount"%string) 6%N (Some "BalanceOf<T>"%string) []); (Field (Some "free"%string) 6%N (Some "BalanceOf<T>"%string) []); (Field (Some "vfree"%string) 6%N (Some "BalanceOf<T>"%string) []); (Field (Some "shadow"%string) 6%N (Some "BalanceOf<T>"%string) [])] 11%N [])]) ["
			The [event](https://docs.substrate.io/main-docs/build/events-errors/) emitted
			by this pallet.
			"%string]).
Definition md_t419 : ty := (Ty ["bifrost_system_maker"%string; "pallet"%string; "Event"%string] [("T"%string,None)] (TVariant [(Variant "Charged"%string [(Field (Some "who"%string) 0%N (Some "AccountIdOf<T>"%string) []); (Field (Some "currency_id"%string) 248%N (Some "CurrencyIdOf<T>"%string) []); (Field (Some "value"%string) 6%N (Some "BalanceOf<T>"%string) [])] 0%N []); (Variant "ConfigSet"%string [(Field (Some "currency_id"%string) 248%N (Some "CurrencyIdOf<T>"%string) []); (Field (Some "info"%string) 344%N (Some "Info<BalanceOf<T>>"%string) [])] 1%N []); (Variant "Closed"%string [(Field (Some "currency_id"%string) 248%N (Some "CurrencyIdOf<T>"%string) [])] 2%N []); (Variant "Paid"%string [(Field (Some "currency_id"%string) 248%N (Some "CurrencyIdOf<T>"%string) []); (Field (Some "value"%string) 6%N (Some "BalanceOf<T>"%string) [])] 3%N []); (Variant "RedeemFailed"%string [(Field (Some "vcurrency_id"%string) 248%N (Some "CurrencyIdOf<T>"%string) []); (Field (Some "amount"%string) 6%N (Some "BalanceOf<T>"%string) [])] 4%N [])]) ["
			The [event](https://docs.substrate.io/main-docs/build/events-errors/) emitted
			by this pallet.
			"%string]).
Definition md_t420 : ty := (Ty ["bifrost_fee_share"%string; "pallet"%string; "Event"%string] [("T"%string,None)] (TVariant [(Variant "Created"%string [(Field (Some "info"%string) 421%N (Some "Info<AccountIdOf<T>>"%string) [])] 0%N []); (Variant "Edited"%string [(Field (Some "info"%string) 421%N (Some "Info<AccountIdOf<T>>"%string) [])] 1%N []); (Variant "EraLengthSet"%string [(Field (Some "era_length"%string) 4%N (Some "BlockNumberFor<T>"%string) []); (Field (Some "next_era"%string) 4%N (Some "BlockNumberFor<T>"%string) [])] 2%N []); (Variant "Executed"%string [(Field (Some "distribution_id"%string) 4%N (Some "DistributionId"%string) [])] 3%N []); (Variant "Deleted"%string [(Field (Some "distribution_id"%string) 4%N (Some "DistributionId"%string) [])] 4%N []); (Variant "ExecuteFailed"%string [(Field (Some "distribution_id"%string) 4%N (Some "DistributionId"%string) []); (Field (Some "info"%string) 421%N (Some "Info<AccountIdOf<T>>"%string) []); (Field (Some "next_era"%string) 4%N (Some "BlockNumberFor<T>"%string) [])] 5%N [])]) ["
			The [event](https://docs.substrate.io/main-docs/build/events-errors/) emitted
			by this pallet.
			"%string]).
Definition md_t421 : ty := (Ty ["bifrost_fee_share"%string; "pallet"%string; "Info"%string] [("AccountIdOf"%string,(Some 0%N))] (TComposite [(Field (Some "receiving_address"%string) 0%N (Some "AccountIdOf"%string) []); (Field (Some "token_type"%string) 268%N (Some "Vec<CurrencyId>"%string) []); (Field (Some "tokens_proportion"%string) 422%N (Some "BTreeMap<AccountIdOf, Perbill>"%string) []); (Field (Some "if_auto"%string) 45%N (Some "bool"%string) [])]) []).
Definition md_t422 : ty := (Ty ["BTreeMap"%string] [("K"%string,(Some 0%N)); ("V"%string,(Some 327%N))] (TComposite [(Field None 346%N None [])]) []).
Definition md_t423 : ty := (Ty ["bifrost_cross_in_out"%string; "pallet"%string; "Event"%string] [("T"%string,None)] (TVariant [(Variant "CrossedOut"%string [(Field (Some "currency_id"%string) 248%N (Some "CurrencyId"%string) []); (Field (Some "crosser"%string) 0%N (Some "AccountIdOf<T>"%string) []); (Field (Some "location"%string) 126%N (Some "MultiLocation"%string) []); (Field (Some "amount"%string) 6%N (Some "BalanceOf<T>"%string) [])] 0%N []); (Variant "CrossedIn"%string [(Field (Some "currency_id"%string) 248%N (Some "CurrencyId"%string) []); (Field (Some "dest"%string) 0%N (Some "AccountIdOf<T>"%string) []); (Field (Some "location"%string) 126%N (Some "MultiLocation"%string) []); (Field (Some "amount"%string) 6%N (Some "BalanceOf<T>"%string) []); (Field (Some "remark"%string) 351%N (Some "Option<Vec<u8>>"%string) [])] 1%N []); (Variant "CurrencyRegistered"%string [(Field (Some "currency_id"%string) 248%N (Some "CurrencyId"%string) [])] 2%N []); (Variant "CurrencyDeregistered"%string [(Field (Some "currency_id"%string) 248%N (Some "CurrencyId"%string) [])] 3%N []); (Variant "AddedToIssueList"%string [(Field (Some "account"%string) 0%N (Some "AccountIdOf<T>"%string) []); (Field (Some "currency_id"%string) 248%N (Some "CurrencyId"%string) [])] 4%N []); (Variant "RemovedFromIssueList"%string [(Field (Some "account"%string) 0%N (Some "AccountIdOf<T>"%string) []); (Field (Some "currency_id"%string) 248%N (Some "CurrencyId"%string) [])] 5%N []); (Variant "LinkedAccountRegistered"%string [(Field (Some "currency_id"%string) 248%N (Some "CurrencyId"%string) []); (Field (Some "who"%string) 0%N (Some "AccountIdOf<T>"%string) []); (Field (Some "foreign_location"%string) 126%N (Some "MultiLocation"%string) [])] 6%N []); (Variant "AddedToRegisterList"%string [(Field (Some "account"%string) 0%N (Some "AccountIdOf<T>"%string) []); (Field (Some "currency_id"%string) 248%N (Some "CurrencyId"%string) [])] 7%N []); (Variant "RemovedFromRegisterList"%string [(Field (Some "account"%string) 0%N (Some "AccountIdOf<T>"%string) []); (Field (Some "currency_id"%string) 248%N (Some "CurrencyId"%string) [])] 8%N []); (Variant "CrossingMinimumAmountSet"%string [(Field (Some "currency_id"%string) 248%N (Some "CurrencyId"%string) []); (Field (Some "cross_in_minimum"%string) 6%N (Some "BalanceOf<T>"%string) []); (Field (Some "cross_out_minimum"%string) 6%N (Some "BalanceOf<T>"%string) [])] 9%N [])]) ["
			The [event](https://docs.substrate.io/main-docs/build/events-errors/) emitted
			by this pallet.
			"%string]).
Definition md_t424 : ty := (Ty ["bifrost_ve_minting"%string; "pallet"%string; "Event"%string] [("T"%string,None)] (TVariant [(Variant "ConfigSet"%string [(Field (Some "config"%string) 425%N (Some "VeConfig<BalanceOf<T>, T::BlockNumber>"%string) [])] 0%N []); (Variant "Minted"%string [(Field (Some "addr"%string) 0%N (Some "AccountIdOf<T>"%string) []); (Field (Some "value"%string) 6%N (Some "BalanceOf<T>"%string) []); (Field (Some "end"%string) 4%N (Some "T::BlockNumber"%string) []); (Field (Some "now"%string) 4%N (Some "T::BlockNumber"%string) [])] 1%N []); (Variant "Supply"%string [(Field (Some "supply_before"%string) 6%N (Some "BalanceOf<T>"%string) []); (Field (Some "supply"%string) 6%N (Some "BalanceOf<T>"%string) [])] 2%N []); (Variant "LockCreated"%string [(Field (Some "addr"%string) 0%N (Some "AccountIdOf<T>"%string) []); (Field (Some "value"%string) 6%N (Some "BalanceOf<T>"%string) []); (Field (Some "unlock_time"%string) 4%N (Some "T::BlockNumber"%string) [])] 3%N []); (Variant "UnlockTimeIncreased"%string [(Field (Some "addr"%string) 0%N (Some "AccountIdOf<T>"%string) []); (Field (Some "unlock_time"%string) 4%N (Some "T::BlockNumber"%string) [])] 4%N []); (Variant "AmountIncreased"%string [(Field (Some "addr"%string) 0%N (Some "AccountIdOf<T>"%string) []); (Field (Some "value"%string) 6%N (Some "BalanceOf<T>"%string) [])] 5%N []); (Variant "Withdrawn"%string [(Field (Some "addr"%string) 0%N (Some "AccountIdOf<T>"%string) []); (Field (Some "value"%string) 6%N (Some "BalanceOf<T>"%string) [])] 6%N []); (Variant "IncentiveSet"%string [(Field (Some "rewards_duration"%string) 4%N (Some "T::BlockNumber"%string) [])] 7%N []); (Variant "RewardAdded"%string [(Field (Some "rewards"%string) 251%N (Some "Vec<(CurrencyIdOf<T>, BalanceOf<T>)>"%string) [])] 8%N []); (Variant "Rewarded"%string [(Field (Some "addr"%string) 0%N (Some "AccountIdOf<T>"%string) []); (Field (Some "rewards"%string) 251%N (Some "Vec<(CurrencyIdOf<T>, BalanceOf<T>)>"%string) [])] 9%N [])]) ["
			The [event](https://docs.substrate.io/main-docs/build/events-errors/) emitted
			by this pallet.
			"%string]).
Definition md_t425 : ty := (Ty ["bifrost_ve_minting"%string; "VeConfig"%string] [("Balance"%string,(Some 6%N)); ("BlockNumber"%string,(Some 4%N))] (TComposite [(Field (Some "amount"%string) 6%N (Some "Balance"%string) []); (Field (Some "min_mint"%string) 6%N (Some "Balance"%string) []); (Field (Some "min_block"%string) 4%N (Some "BlockNumber"%string) [])]) []).
Definition md_t426 : ty := (Ty ["bifrost_slpx"%string; "pallet"%string; "Event"%string] [("T"%string,None)] (TVariant [(Variant "AddWhitelistAccountId"%string [(Field (Some "support_chain"%string) 356%N (Some "SupportChain"%string) []); (Field (Some "evm_contract_account_id"%string) 0%N (Some "AccountIdOf<T>"%string) [])] 0%N []); (Variant "RemoveWhitelistAccountId"%string [(Field (Some "support_chain"%string) 356%N (Some "SupportChain"%string) []); (Field (Some "evm_contract_account_id"%string) 0%N (Some "AccountIdOf<T>"%string) [])] 1%N []); (Variant "XcmMint"%string [(Field (Some "evm_caller"%string) 354%N (Some "H160"%string) []); (Field (Some "currency_id"%string) 248%N (Some "CurrencyIdOf<T>"%string) []); (Field (Some "token_amount"%string) 6%N (Some "BalanceOf<T>"%string) []); (Field (Some "target_chain"%string) 355%N (Some "TargetChain<AccountIdOf<T>>"%string) [])] 2%N []); (Variant "XcmMintFailed"%string [(Field (Some "evm_caller"%string) 354%N (Some "H160"%string) []); (Field (Some "currency_id"%string) 248%N (Some "CurrencyIdOf<T>"%string) []); (Field (Some "token_amount"%string) 6%N (Some "BalanceOf<T>"%string) []); (Field (Some "target_chain"%string) 355%N (Some "TargetChain<AccountIdOf<T>>"%string) [])] 3%N []); (Variant "XcmZenlinkSwap"%string [(Field (Some "evm_caller"%string) 354%N (Some "H160"%string) []); (Field (Some "currency_id_in"%string) 248%N (Some "CurrencyIdOf<T>"%string) []); (Field (Some "currency_id_out"%string) 248%N (Some "CurrencyIdOf<T>"%string) []); (Field (Some "currency_id_out_amount"%string) 6%N (Some "BalanceOf<T>"%string) []); (Field (Some "target_chain"%string) 355%N (Some "TargetChain<AccountIdOf<T>>"%string) [])] 4%N []); (Variant "XcmZenlinkSwapFailed"%string [(Field (Some "evm_caller"%string) 354%N (Some "H160"%string) []); (Field (Some "currency_id_in"%string) 248%N (Some "CurrencyIdOf<T>"%string) []); (Field (Some "currency_id_out"%string) 248%N (Some "CurrencyIdOf<T>"%string) []); (Field (Some "currency_id_in_amount"%string) 6%N (Some "BalanceOf<T>"%string) []); (Field (Some "target_chain"%string) 355%N (Some "TargetChain<AccountIdOf<T>>"%string) [])] 5%N []); (Variant "XcmStablePoolSwap"%string [(Field (Some "evm_caller"%string) 354%N (Some "H160"%string) []); (Field (Some "pool_token_index_in"%string) 4%N (Some "PoolTokenIndex"%string) []); (Field (Some "pool_token_index_out"%string) 4%N (Some "PoolTokenIndex"%string) []); (Field (Some "currency_id_out_amount"%string) 6%N (Some "BalanceOf<T>"%string) []); (Field (Some "target_chain"%string) 355%N (Some "TargetChain<AccountIdOf<T>>"%string) [])] 6%N []); (Variant "XcmStablePoolSwapFailed"%string [(Field (Some "evm_caller"%string) 354%N (Some "H160"%string) []); (Field (Some "pool_token_index_in"%string) 4%N (Some "PoolTokenIndex"%string) []); (Field (Some "pool_token_index_out"%string) 4%N (Some "PoolTokenIndex"%string) []); (Field (Some "currency_id_in_amount"%string) 6%N (Some "BalanceOf<T>"%string) []); (Field (Some "target_chain"%string) 355%N (Some "TargetChain<AccountIdOf<T>>"%string) [])] 7%N []); (Variant "XcmRedeem"%string [(Field (Some "evm_caller"%string) 354%N (Some "H160"%string) []); (Field (Some "vtoken_id"%string) 248%N (Some "CurrencyIdOf<T>"%string) []); (Field (Some "vtoken_amount"%string) 6%N (Some "BalanceOf<T>"%string) []); (Field (Some "target_chain"%string) 355%N (Some "TargetChain<AccountIdOf<T>>"%string) [])] 8%N []); (Variant "XcmRedeemFailed"%string [(Field (Some "evm_caller"%string) 354%N (Some "H160"%string) []); (Field (Some "vtoken_id"%string) 248%N (Some "CurrencyIdOf<T>"%string) []); (Field (Some "vtoken_amount"%string) 6%N (Some "BalanceOf<T>"%string) []); (Field (Some "target_chain"%string) 355%N (Some "TargetChain<AccountIdOf<T>>"%string) [])] 9%N []); (Variant "SetTransferToFee"%string [(Field (Some "support_chain"%string) 356%N (Some "SupportChain"%string) []); (Field (Some "transfer_to_fee"%string) 6%N (Some "BalanceOf<T>"%string) [])] 10%N []); (Variant "SetExecutionFee"%string [(Field (Some "currency_id"%string) 248%N (Some "CurrencyId"%string) []); (Field (Some "execution_fee"%string) 6%N (Some "BalanceOf<T>"%string) [])] 11%N [])]) ["
			The [event](https://docs.substrate.io/main-docs/build/events-errors/) emitted
			by this pallet.
			"%string]).
Definition md_t427 : ty := (Ty ["pallet_ranked_collective"%string; "pallet"%string; "Event"%string] [("T"%string,None); ("I"%string,None)] (TVariant [(Variant "MemberAdded"%string [(Field (Some "who"%string) 0%N (Some "T::AccountId"%string) [])] 0%N ["A member `who` has been added."%string]); (Variant "RankChanged"%string [(Field (Some "who"%string) 0%N (Some "T::AccountId"%string) []); (Field (Some "rank"%string) 56%N (Some "Rank"%string) [])] 1%N ["The member `who`se rank has been changed to the given `rank`."%string]); (Variant "MemberRemoved"%string [(Field (Some "who"%string) 0%N (Some "T::AccountId"%string) []); (Field (Some "rank"%string) 56%N (Some "Rank"%string) [])] 2%N ["The member `who` of given `rank` has been removed from the collective."%string]); (Variant "Voted"%string [(Field (Some "who"%string) 0%N (Some "T::AccountId"%string) []); (Field (Some "poll"%string) 4%N (Some "PollIndexOf<T, I>"%string) []); (Field (Some "vote"%string) 428%N (Some "VoteRecord"%string) []); (Field (Some "tally"%string) 429%N (Some "TallyOf<T, I>"%string) [])] 3%N ["The member `who` has voted for the `poll` with the given `vote` leading to an updated"%string; "`tally`."%string])]) ["
			The [event](https://docs.substrate.io/main-docs/build/events-errors/) emitted
			by this pallet.
			"%string]).
Definition md_t428 : ty := (Ty ["pallet_ranked_collective"%string; "VoteRecord"%string] [] (TVariant [(Variant "Aye"%string [(Field None 4%N (Some "Votes"%string) [])] 0%N []); (Variant "Nay"%string [(Field None 4%N (Some "Votes"%string) [])] 1%N [])]) []).
Definition md_t429 : ty := (Ty ["pallet_ranked_collective"%string; "Tally"%string] [("T"%string,None); ("I"%string,None); ("M"%string,None)] (TComposite [(Field (Some "bare_ayes"%string) 4%N (Some "MemberIndex"%string) []); (Field (Some "ayes"%string) 4%N (Some "Votes"%string) []); (Field (Some "nays"%string) 4%N (Some "Votes"%string) [])]) []).
Definition md_t430 : ty := (Ty ["pallet_referenda"%string; "pallet"%string; "Event"%string] [("T"%string,None); ("I"%string,None)] (TVariant [(Variant "Submitted"%string [(Field (Some "index"%string) 4%N (Some "ReferendumIndex"%string) ["Index of the referendum."%string]); (Field (Some "track"%string) 56%N (Some "TrackIdOf<T, I>"%string) ["The track (and by extension proposal dispatch origin) of this referendum."%string]); (Field (Some "proposal"%string) 57%N (Some "BoundedCallOf<T, I>"%string) ["The proposal for the referendum."%string])] 0%N ["A referendum has been submitted."%string]); (Variant "DecisionDepositPlaced"%string [(Field (Some "index"%string) 4%N (Some "ReferendumIndex"%string) ["Index of the referendum."%string]); (Field (Some "who"%string) 0%N (Some "T::AccountId"%string) ["The account who placed the deposit."%string]); (Field (Some "amount"%string) 6%N (Some "BalanceOf<T, I>"%string) ["The amount placed by the account."%string])] 1%N ["The decision deposit has been placed."%string]); (Variant "DecisionDepositRefunded"%string [(Field (Some "index"%string) 4%N (Some "ReferendumIndex"%string) ["Index of the referendum."%string]); (Field (Some "who"%string) 0%N (Some "T::AccountId"%string) ["The account who placed the deposit."%string]); (Field (Some "amount"%string) 6%N (Some "BalanceOf<T, I>"%string) ["The amount placed by the account."%string])] 2%N ["The decision deposit has been refunded."%string]); (Variant "DepositSlashed"%string [(Field (Some "who"%string) 0%N (Some "T::AccountId"%string) ["The account who placed the deposit."%string]); (Field (Some "amount"%string) 6%N (Some "BalanceOf<T, I>"%string) ["The amount placed by the account."%string])] 3%N ["A deposit has been slashaed."%string]); (Variant "DecisionStarted"%string [(Field (Some "index"%string) 4%N (Some "ReferendumIndex"%string) ["Index of the referendum."%string]); (Field (Some "track"%string) 56%N (Some "TrackIdOf<T, I>"%string) ["The track (and by extension proposal dispatch origin) of this referendum."%string]); (Field (Some "proposal"%string) 57%N (Some "BoundedCallOf<T, I>"%string) ["The proposal for the referendum."%string]); (Field (Some "tally"%string) 429%N (Some "T::Tally"%string) ["The current tally of votes in this referendum."%string])] 4%N ["A referendum has moved into the deciding phase."%string]); (Variant "ConfirmStarted"%string [(Field (Some "index"%string) 4%N (Some "ReferendumIndex"%string) ["Index of the referendum."%string])] 5%N []); (Variant "ConfirmAborted"%string [(Field (Some "index"%string) 4%N (Some "ReferendumIndex"%string) ["Index of the referendum."%string])] 6%N []); (Variant "Confirmed"%string [(Field (Some "index"%string) 4%N (Some "ReferendumIndex"%string) ["Index of the referendum."%string]); (Field (Some "tally"%string) 429%N (Some "T::Tally"%string) ["The final tally of votes in this referendum."%string])] 7%N ["A referendum has ended its confirmation phase and is ready for approval."%string]); (Variant "Approved"%string [(Field (Some "index"%string) 4%N (Some "ReferendumIndex"%string) ["Index of the referendum."%string])] 8%N ["A referendum has been approved and its proposal has been scheduled."%string]); (Variant "Rejected"%string [(Field (Some "index"%string) 4%N (Some "ReferendumIndex"%string) ["Index of the referendum."%string]); (Field (Some "tally"%string) 429%N (Some "T::Tally"%string) ["The final tally of votes in this referendum."%string])] 9%N ["A proposal has been rejected by referendum."%string]); (Variant "TimedOut"%string [(Field (Some "index"%string) 4%N (Some "ReferendumIndex"%string) ["Index of the referendum."%string]); (Field (Some "tally"%string) 429%N (Some "T::Tally"%string) ["The final tally of votes in this referendum."%string])] 10%N ["A referendum has been timed out without being decided."%string]); (Variant "Cancelled"%string [(Field (Some "index"%string) 4%N (Some "ReferendumIndex"%string) ["Index of the referendum."%string]); (Field (Some "tally"%string) 429%N (Some "T::Tally"%string) ["The final tally of votes in this referendum."%string])] 11%N ["A referendum has been cancelled."%string]); (Variant "Killed"%string [(Field (Some "index"%string) 4%N (Some "ReferendumIndex"%string) ["Index of the referendum."%string]); (Field (Some "tally"%string) 429%N (Some "T::Tally"%string) ["The final tally of votes in this referendum."%string])] 12%N ["A referendum has been killed."%string]); (Variant "SubmissionDepositRefunded"%string [(Field (Some "index"%string) 4%N (Some "ReferendumIndex"%string) ["Index of the referendum."%string]); (Field (Some "who"%string) 0%N (Some "T::AccountId"%string) ["The account who placed the deposit."%string]); (Field (Some "amount"%string) 6%N (Some "BalanceOf<T, I>"%string) ["The amount placed by the account."%string])] 13%N ["The submission deposit has been refunded."%string]); (Variant "MetadataSet"%string [(Field (Some "index"%string) 4%N (Some "ReferendumIndex"%string) ["Index of the referendum."%string]); (Field (Some "hash"%string) 12%N (Some "PreimageHash"%string) ["Preimage hash."%string])] 14%N ["Metadata for a referendum has been set."%string]); (Variant "MetadataCleared"%string [(Field (Some "index"%string) 4%N (Some "ReferendumIndex"%string) ["Index of the referendum."%string]); (Field (Some "hash"%string) 12%N (Some "PreimageHash"%string) ["Preimage hash."%string])] 15%N ["Metadata for a referendum has been cleared."%string])]) ["
			The [event](https://docs.substrate.io/main-docs/build/events-errors/) emitted
			by this pallet.
			"%string]).
Definition md_t431 : ty := (Ty ["nutsfinance_stable_asset"%string; "pallet"%string; "Event"%string] [("T"%string,None)] (TVariant [(Variant "CreatePool"%string [(Field (Some "pool_id"%string) 4%N (Some "StableAssetPoolId"%string) []); (Field (Some "a"%string) 6%N (Some "T::AtLeast64BitUnsigned"%string) []); (Field (Some "swap_id"%string) 0%N (Some "T::AccountId"%string) []); (Field (Some "pallet_id"%string) 0%N (Some "T::AccountId"%string) [])] 0%N []); (Variant "LiquidityAdded"%string [(Field (Some "minter"%string) 0%N (Some "T::AccountId"%string) []); (Field (Some "pool_id"%string) 4%N (Some "StableAssetPoolId"%string) []); (Field (Some "a"%string) 6%N (Some "T::AtLeast64BitUnsigned"%string) []); (Field (Some "input_amounts"%string) 360%N (Some "Vec<T::Balance>"%string) []); (Field (Some "min_output_amount"%string) 6%N (Some "T::Balance"%string) []); (Field (Some "balances"%string) 360%N (Some "Vec<T::Balance>"%string) []); (Field (Some "total_supply"%string) 6%N (Some "T::Balance"%string) []); (Field (Some "fee_amount"%string) 6%N (Some "T::Balance"%string) []); (Field (Some "output_amount"%string) 6%N (Some "T::Balance"%string) [])] 1%N []); (Variant "TokenSwapped"%string [(Field (Some "swapper"%string) 0%N (Some "T::AccountId"%string) []); (Field (Some "pool_id"%string) 4%N (Some "StableAssetPoolId"%string) []); (Field (Some "a"%string) 6%N (Some "T::AtLeast64BitUnsigned"%string) []); (Field (Some "input_asset"%string) 248%N (Some "T::AssetId"%string) []); (Field (Some "output_asset"%string) 248%N (Some "T::AssetId"%string) []); (Field (Some "input_amount"%string) 6%N (Some "T::Balance"%string) []); (Field (Some "min_output_amount"%string) 6%N (Some "T::Balance"%string) []); (Field (Some "balances"%string) 360%N (Some "Vec<T::Balance>"%string) []); (Field (Some "total_supply"%string) 6%N (Some "T::Balance"%string) []); (Field (Some "output_amount"%string) 6%N (Some "T::Balance"%string) [])] 2%N []); (Variant "RedeemedProportion"%string [(Field (Some "redeemer"%string) 0%N (Some "T::AccountId"%string) []); (Field (Some "pool_id"%string) 4%N (Some "StableAssetPoolId"%string) []); (Field (Some "a"%string) 6%N (Some "T::AtLeast64BitUnsigned"%string) []); (Field (Some "input_amount"%string) 6%N (Some "T::Balance"%string) []); (Field (Some "min_output_amounts"%string) 360%N (Some "Vec<T::Balance>"%string) []); (Field (Some "balances"%string) 360%N (Some "Vec<T::Balance>"%string) []); (Field (Some "total_supply"%string) 6%N (Some "T::Balance"%string) []); (Field (Some "fee_amount"%string) 6%N (Some "T::Balance"%string) []); (Field (Some "output_amounts"%string) 360%N (Some "Vec<T::Balance>"%string) [])] 3%N []); (Variant "RedeemedSingle"%string [(Field (Some "redeemer"%string) 0%N (Some "T::AccountId"%string) []); (Field (Some "pool_id"%string) 4%N (Some "StableAssetPoolId"%string) []); (Field (Some "a"%string) 6%N (Some "T::AtLeast64BitUnsigned"%string) []); (Field (Some "input_amount"%string) 6%N (Some "T::Balance"%string) []); (Field (Some "output_asset"%string) 248%N (Some "T::AssetId"%string) []); (Field (Some "min_output_amount"%string) 6%N (Some "T::Balance"%string) []); (Field (Some "balances"%string) 360%N (Some "Vec<T::Balance>"%string) []); (Field (Some "total_supply"%string) 6%N (Some "T::Balance"%string) []); (Field (Some "fee_amount"%string) 6%N (Some "T::Balance"%string) []); (Field (Some "output_amount"%string) 6%N (Some "T::Balance"%string) [])] 4%N []); (Variant "RedeemedMulti"%string [(Field (Some "redeemer"%string) 0%N (Some "T::AccountId"%string) []); (Field (Some "pool_id"%string) 4%N (Some "StableAssetPoolId"%string) []); (Field (Some "a"%string) 6%N (Some "T::AtLeast64BitUnsigned"%string) []); (Field (Some "output_amounts"%string) 360%N (Some "Vec<T::Balance>"%string) []); (Field (Some "max_input_amount"%string) 6%N (Some "T::Balance"%string) []); (Field (Some "balances"%string) 360%N (Some "Vec<T::Balance>"%string) []); (Field (Some "total_supply"%string) 6%N (Some "T::Balance"%string) []); (Field (Some "fee_amount"%string) 6%N (Some "T::Balance"%string) []); (Field (Some "input_amount"%string) 6%N (Some "T::Balance"%string) [])] 5%N []); (Variant "BalanceUpdated"%string [(Field (Some "pool_id"%string) 4%N (Some "StableAssetPoolId"%string) []); (Field (Some "old_balances"%string) 360%N (Some "Vec<T::Balance>"%string) []); (Field (Some "new_balances"%string) 360%N (Some "Vec<T::Balance>"%string) [])] 6%N []); (Variant "YieldCollected"%string [(Field (Some "pool_id"%string) 4%N (Some "StableAssetPoolId"%string) []); (Field (Some "a"%string) 6%N (Some "T::AtLeast64BitUnsigned"%string) []); (Field (Some "old_total_supply"%string) 6%N (Some "T::Balance"%string) []); (Field (Some "new_total_supply"%string) 6%N (Some "T::Balance"%string) []); (Field (Some "who"%string) 0%N (Some "T::AccountId"%string) []); (Field (Some "amount"%string) 6%N (Some "T::Balance"%string) [])] 7%N []); (Variant "FeeCollected"%string [(Field (Some "pool_id"%string) 4%N (Some "StableAssetPoolId"%string) []); (Field (Some "a"%string) 6%N (Some "T::AtLeast64BitUnsigned"%string) []); (Field (Some "old_balances"%string) 360%N (Some "Vec<T::Balance>"%string) []); (Field (Some "new_balances"%string) 360%N (Some "Vec<T::Balance>"%string) []); (Field (Some "old_total_supply"%string) 6%N (Some "T::Balance"%string) []); (Field (Some "new_total_supply"%string) 6%N (Some "T::Balance"%string) []); (Field (Some "who"%string) 0%N (Some "T::AccountId"%string) []); (Field (Some "amount"%string) 6%N (Some "T::Balance"%string) [])] 8%N []); (Variant "AModified"%string [(Field (Some "pool_id"%string) 4%N (Some "StableAssetPoolId"%string) []); (Field (Some "value"%string) 6%N (Some "T::AtLeast64BitUnsigned"%string) []); (Field (Some "time"%string) 4%N (Some "T::BlockNumber"%string) [])] 9%N []); (Variant "FeeModified"%string [(Field (Some "pool_id"%string) 4%N (Some "StableAssetPoolId"%string) []); (Field (Some "mint_fee"%string) 6%N (Some "T::AtLeast64BitUnsigned"%string) []); (Field (Some "swap_fee"%string) 6%N (Some "T::AtLeast64BitUnsigned"%string) []); (Field (Some "redeem_fee"%string) 6%N (Some "T::AtLeast64BitUnsigned"%string) [])] 10%N []); (Variant "RecipientModified"%string [(Field (Some "pool_id"%string) 4%N (Some "StableAssetPoolId"%string) []); (Field (Some "fee_recipient"%string) 0%N (Some "T::AccountId"%string) []); (Field (Some "yield_recipient"%string) 0%N (Some "T::AccountId"%string) [])] 11%N []); (Variant "TokenRateSet"%string [(Field (Some "pool_id"%string) 4%N (Some "StableAssetPoolId"%string) []); (Field (Some "token_rate"%string) 361%N (Some "Vec<(T::AssetId, (T::AtLeast64BitUnsigned, T::AtLeast64BitUnsigned))>"%string) [])] 12%N [])]) ["
			The [event](https://docs.substrate.io/main-docs/build/events-errors/) emitted
			by this pallet.
			"%string]).
Definition md_t432 : ty := (Ty ["bifrost_vtoken_voting"%string; "pallet"%string; "Event"%string] [("T"%string,None)] (TVariant [(Variant "Voted"%string [(Field (Some "who"%string) 0%N (Some "AccountIdOf<T>"%string) []); (Field (Some "vtoken"%string) 248%N (Some "CurrencyIdOf<T>"%string) []); (Field (Some "poll_index"%string) 4%N (Some "PollIndex"%string) []); (Field (Some "new_vote"%string) 365%N (Some "AccountVote<BalanceOf<T>>"%string) []); (Field (Some "delegator_vote"%string) 365%N (Some "AccountVote<BalanceOf<T>>"%string) [])] 0%N []); (Variant "Unlocked"%string [(Field (Some "who"%string) 0%N (Some "AccountIdOf<T>"%string) []); (Field (Some "vtoken"%string) 248%N (Some "CurrencyIdOf<T>"%string) []); (Field (Some "poll_index"%string) 4%N (Some "PollIndex"%string) [])] 1%N []); (Variant "DelegatorVoteRemoved"%string [(Field (Some "who"%string) 0%N (Some "AccountIdOf<T>"%string) []); (Field (Some "vtoken"%string) 248%N (Some "CurrencyIdOf<T>"%string) []); (Field (Some "derivative_index"%string) 56%N (Some "DerivativeIndex"%string) [])] 2%N []); (Variant "DelegatorRoleSet"%string [(Field (Some "vtoken"%string) 248%N (Some "CurrencyIdOf<T>"%string) []); (Field (Some "role"%string) 366%N (Some "VoteRole"%string) []); (Field (Some "derivative_index"%string) 56%N (Some "DerivativeIndex"%string) [])] 3%N []); (Variant "ReferendumInfoCreated"%string [(Field (Some "vtoken"%string) 248%N (Some "CurrencyIdOf<T>"%string) []); (Field (Some "poll_index"%string) 4%N (Some "PollIndex"%string) []); (Field (Some "info"%string) 367%N (Some "ReferendumInfoOf<T>"%string) [])] 4%N []); (Variant "ReferendumInfoSet"%string [(Field (Some "vtoken"%string) 248%N (Some "CurrencyIdOf<T>"%string) []); (Field (Some "poll_index"%string) 4%N (Some "PollIndex"%string) []); (Field (Some "info"%string) 367%N (Some "ReferendumInfoOf<T>"%string) [])] 5%N []); (Variant "VoteLockingPeriodSet"%string [(Field (Some "vtoken"%string) 248%N (Some "CurrencyIdOf<T>"%string) []); (Field (Some "locking_period"%string) 4%N (Some "BlockNumberFor<T>"%string) [])] 6%N []); (Variant "UndecidingTimeoutSet"%string [(Field (Some "vtoken"%string) 248%N (Some "CurrencyIdOf<T>"%string) []); (Field (Some "undeciding_timeout"%string) 4%N (Some "BlockNumberFor<T>"%string) [])] 7%N []); (Variant "ReferendumKilled"%string [(Field (Some "vtoken"%string) 248%N (Some "CurrencyIdOf<T>"%string) []); (Field (Some "poll_index"%string) 4%N (Some "PollIndex"%string) [])] 8%N []); (Variant "VoteNotified"%string [(Field (Some "vtoken"%string) 248%N (Some "CurrencyIdOf<T>"%string) []); (Field (Some "poll_index"%string) 4%N (Some "PollIndex"%string) []); (Field (Some "success"%string) 45%N (Some "bool"%string) [])] 9%N []); (Variant "DelegatorVoteRemovedNotified"%string [(Field (Some "vtoken"%string) 248%N (Some "CurrencyIdOf<T>"%string) []); (Field (Some "poll_index"%string) 4%N (Some "PollIndex"%string) []); (Field (Some "success"%string) 45%N (Some "bool"%string) [])] 10%N []); (Variant "ResponseReceived"%string [(Field (Some "responder"%string) 112%N (Some "MultiLocation"%string) []); (Field (Some "query_id"%string) 11%N (Some "QueryId"%string) []); (Field (Some "response"%string) 164%N (Some "Response"%string) [])] 11%N [])]) ["
			The [event](https://docs.substrate.io/main-docs/build/events-errors/) emitted
			by this pallet.
			"%string]).
Definition md_t433 : ty := (Ty ["frame_system"%string; "Phase"%string] [] (TVariant [(Variant "ApplyExtrinsic"%string [(Field None 4%N (Some "u32"%string) [])] 0%N []); (Variant "Finalization"%string [] 1%N []); (Variant "Initialization"%string [] 2%N [])]) []).
Definition md_t434 : ty := (Ty [] [] (TSequence 194%N) []).
Definition md_t435 : ty := (Ty ["frame_system"%string; "LastRuntimeUpgradeInfo"%string] [] (TComposite [(Field (Some "spec_version"%string) 66%N (Some "codec::Compact<u32>"%string) []); (Field (Some "spec_name"%string) 436%N (Some "sp_runtime::RuntimeString"%string) [])]) []).
Definition md_t436 : ty := (Ty [] [] (TPrimitive PrStr) []).
Definition md_t437 : ty := (Ty ["frame_system"%string; "limits"%string; "BlockWeights"%string] [] (TComposite [(Field (Some "base_block"%string) 9%N (Some "Weight"%string) []); (Field (Some "max_block"%string) 9%N (Some "Weight"%string) []); (Field (Some "per_class"%string) 438%N (Some "PerDispatchClass<WeightsPerClass>"%string) [])]) []).
Definition md_t438 : ty := (Ty ["frame_support"%string; "dispatch"%string; "PerDispatchClass"%string] [("T"%string,(Some 439%N))] (TComposite [(Field (Some "normal"%string) 439%N (Some "T"%string) []); (Field (Some "operational"%string) 439%N (Some "T"%string) []); (Field (Some "mandatory"%string) 439%N (Some "T"%string) [])]) []).
Definition md_t439 : ty := (Ty ["frame_system"%string; "limits"%string; "WeightsPerClass"%string] [] (TComposite [(Field (Some "base_extrinsic"%string) 9%N (Some "Weight"%string) []); (Field (Some "max_extrinsic"%string) 375%N (Some "Option<Weight>"%string) []); (Field (Some "max_total"%string) 375%N (Some "Option<Weight>"%string) []); (Field (Some "reserved"%string) 375%N (Some "Option<Weight>"%string) [])]) []).
Definition md_t440 : ty := (Ty ["frame_system"%string; "limits"%string; "BlockLength"%string] [] (TComposite [(Field (Some "max"%string) 441%N (Some "PerDispatchClass<u32>"%string) [])]) []).
Definition md_t441 : ty := (Ty ["frame_support"%string; "dispatch"%string; "PerDispatchClass"%string] [("T"%string,(Some 4%N))] (TComposite [(Field (Some "normal"%string) 4%N (Some "T"%string) []); (Field (Some "operational"%string) 4%N (Some "T"%string) []); (Field (Some "mandatory"%string) 4%N (Some "T"%string) [])]) []).
Definition md_t442 : ty := (Ty ["sp_weights"%string; "RuntimeDbWeight"%string] [] (TComposite [(Field (Some "read"%string) 11%N (Some "u64"%string) []); (Field (Some "write"%string) 11%N (Some "u64"%string) [])]) []).
Definition md_t443 : ty := (Ty ["sp_version"%string; "RuntimeVersion"%string] [] (TComposite [(Field (Some "spec_name"%string) 436%N (Some "RuntimeString"%string) []); (Field (Some "impl_name"%string) 436%N (Some "RuntimeString"%string) []); (Field (Some "authoring_version"%string) 4%N (Some "u32"%string) []); (Field (Some "spec_version"%string) 4%N (Some "u32"%string) []); (Field (Some "impl_version"%string) 4%N (Some "u32"%string) []); (Field (Some "apis"%string) 444%N (Some "ApisVec"%string) []); (Field (Some "transaction_version"%string) 4%N (Some "u32"%string) []); (Field (Some "state_version"%string) 2%N (Some "u8"%string) [])]) []).
Definition md_t444 : ty := (Ty ["Cow"%string] [("T"%string,(Some 445%N))] (TComposite [(Field None 445%N None [])]) []).
Definition md_t445 : ty := (Ty [] [] (TSequence 446%N) []).
Definition md_t446 : ty := (Ty [] [] (TTuple [143%N; 4%N]) []).
Definition md_t447 : ty := (Ty ["frame_system"%string; "pallet"%string; "Error"%string] [("T"%string,None)] (TVariant [(Variant "InvalidSpecName"%string [] 0%N ["The name of specification does not match between the current runtime"%string; "and the new runtime."%string]); (Variant "SpecVersionNeedsToIncrease"%string [] 1%N ["The specification version is not allowed to decrease between the current runtime"%string; "and the new runtime."%string]); (Variant "FailedToExtractRuntimeVersion"%string [] 2%N ["Failed to extract the runtime version from the new runtime."%string; ""%string; "Either calling `Core_version` or decoding `RuntimeVersion` failed."%string]); (Variant "NonDefaultComposite"%string [] 3%N ["Suicide called when the account has non-default composite data."%string]); (Variant "NonZeroRefCount"%string [] 4%N ["There is a non-zero reference count preventing the account from being purged."%string]); (Variant "CallFiltered"%string [] 5%N ["The origin filter prevent the call to be dispatched."%string])]) ["Error for the System pallet"%string]).
Definition md_t448 : ty := (Ty [] [] (TTuple [0%N; 6%N; 45%N]) []).
Definition md_t449 : ty := (Ty ["pallet_indices"%string; "pallet"%string; "Error"%string] [("T"%string,None)] (TVariant [(Variant "NotAssigned"%string [] 0%N ["The index was not already assigned."%string]); (Variant "NotOwner"%string [] 1%N ["The index is assigned to another account."%string]); (Variant "InUse"%string [] 2%N ["The index was not available."%string]); (Variant "NotTransfer"%string [] 3%N ["The source and destination accounts are identical."%string]); (Variant "Permanent"%string [] 4%N ["The index is permanent and may not be freed/changed."%string])]) ["
			Custom [dispatch errors](https://docs.substrate.io/main-docs/build/events-errors/)
			of this pallet.
			"%string]).
Definition md_t450 : ty := (Ty ["Option"%string] [("T"%string,(Some 451%N))] (TVariant [(Variant "None"%string [] 0%N []); (Variant "Some"%string [(Field None 451%N None [])] 1%N [])]) []).
Definition md_t451 : ty := (Ty ["polkadot_primitives"%string; "v4"%string; "UpgradeRestriction"%string] [] (TVariant [(Variant "Present"%string [] 0%N [])]) []).
Definition md_t452 : ty := (Ty ["cumulus_pallet_parachain_system"%string; "relay_state_snapshot"%string; "MessagingStateSnapshot"%string] [] (TComposite [(Field (Some "dmq_mqc_head"%string) 12%N (Some "relay_chain::Hash"%string) []); (Field (Some "relay_dispatch_queue_size"%string) 194%N (Some "(u32, u32)"%string) []); (Field (Some "ingress_channels"%string) 453%N (Some "Vec<(ParaId, AbridgedHrmpChannel)>"%string) []); (Field (Some "egress_channels"%string) 453%N (Some "Vec<(ParaId, AbridgedHrmpChannel)>"%string) [])]) []).
Definition md_t453 : ty := (Ty [] [] (TSequence 454%N) []).
Definition md_t454 : ty := (Ty [] [] (TTuple [77%N; 455%N]) []).
Definition md_t455 : ty := (Ty ["polkadot_primitives"%string; "v4"%string; "AbridgedHrmpChannel"%string] [] (TComposite [(Field (Some "max_capacity"%string) 4%N (Some "u32"%string) []); (Field (Some "max_total_size"%string) 4%N (Some "u32"%string) []); (Field (Some "max_message_size"%string) 4%N (Some "u32"%string) []); (Field (Some "msg_count"%string) 4%N (Some "u32"%string) []); (Field (Some "total_size"%string) 4%N (Some "u32"%string) []); (Field (Some "mqc_head"%string) 92%N (Some "Option<Hash>"%string) [])]) []).
Definition md_t456 : ty := (Ty ["polkadot_primitives"%string; "v4"%string; "AbridgedHostConfiguration"%string] [] (TComposite [(Field (Some "max_code_size"%string) 4%N (Some "u32"%string) []); (Field (Some "max_head_data_size"%string) 4%N (Some "u32"%string) []); (Field (Some "max_upward_queue_count"%string) 4%N (Some "u32"%string) []); (Field (Some "max_upward_queue_size"%string) 4%N (Some "u32"%string) []); (Field (Some "max_upward_message_size"%string) 4%N (Some "u32"%string) []); (Field (Some "max_upward_message_num_per_candidate"%string) 4%N (Some "u32"%string) []); (Field (Some "hrmp_max_message_num_per_candidate"%string) 4%N (Some "u32"%string) []); (Field (Some "validation_upgrade_cooldown"%string) 4%N (Some "BlockNumber"%string) []); (Field (Some "validation_upgrade_delay"%string) 4%N (Some "BlockNumber"%string) [])]) []).
Definition md_t457 : ty := (Ty ["cumulus_primitives_parachain_inherent"%string; "MessageQueueChain"%string] [] (TComposite [(Field None 12%N (Some "RelayHash"%string) [])]) []).
Definition md_t458 : ty := (Ty ["BTreeMap"%string] [("K"%string,(Some 77%N)); ("V"%string,(Some 457%N))] (TComposite [(Field None 459%N None [])]) []).
Definition md_t459 : ty := (Ty [] [] (TSequence 460%N) []).
Definition md_t460 : ty := (Ty [] [] (TTuple [77%N; 457%N]) []).
Definition md_t461 : ty := (Ty [] [] (TSequence 462%N) []).
Definition md_t462 : ty := (Ty ["polkadot_core_primitives"%string; "OutboundHrmpMessage"%string] [("Id"%string,(Some 77%N))] (TComposite [(Field (Some "recipient"%string) 77%N (Some "Id"%string) []); (Field (Some "data"%string) 13%N (Some "sp_std::vec::Vec<u8>"%string) [])]) []).
Definition md_t463 : ty := (Ty ["cumulus_pallet_parachain_system"%string; "CodeUpgradeAuthorization"%string] [("T"%string,None)] (TComposite [(Field (Some "code_hash"%string) 12%N (Some "T::Hash"%string) []); (Field (Some "check_version"%string) 45%N (Some "bool"%string) [])]) []).
Definition md_t464 : ty := (Ty ["cumulus_pallet_parachain_system"%string; "pallet"%string; "Error"%string] [("T"%string,None)] (TVariant [(Variant "OverlappingUpgrades"%string [] 0%N ["Attempt to upgrade validation function while existing upgrade pending."%string]); (Variant "ProhibitedByPolkadot"%string [] 1%N ["Polkadot currently prohibits this parachain from upgrading its validation function."%string]); (Variant "TooBig"%string [] 2%N ["The supplied validation function has compiled into a blob larger than Polkadot is"%string; "willing to run."%string]); (Variant "ValidationDataNotAvailable"%string [] 3%N ["The inherent which supplies the validation data did not run this block."%string]); (Variant "HostConfigurationNotAvailable"%string [] 4%N ["The inherent which supplies the host configuration did not run this block."%string]); (Variant "NotScheduled"%string [] 5%N ["No validation function upgrade is currently scheduled."%string]); (Variant "NothingAuthorized"%string [] 6%N ["No code upgrade has been authorized."%string]); (Variant "Unauthorized"%string [] 7%N ["The given code upgrade has not been authorized."%string])]) ["
			Custom [dispatch errors](https://docs.substrate.io/main-docs/build/events-errors/)
			of this pallet.
			"%string]).
Definition md_t465 : ty := (Ty ["bounded_collections"%string; "weak_bounded_vec"%string; "WeakBoundedVec"%string] [("T"%string,(Some 466%N)); ("S"%string,None)] (TComposite [(Field None 468%N (Some "Vec<T>"%string) [])]) []).
Definition md_t466 : ty := (Ty ["pallet_balances"%string; "types"%string; "BalanceLock"%string] [("Balance"%string,(Some 6%N))] (TComposite [(Field (Some "id"%string) 143%N (Some "LockIdentifier"%string) []); (Field (Some "amount"%string) 6%N (Some "Balance"%string) []); (Field (Some "reasons"%string) 467%N (Some "Reasons"%string) [])]) []).
Definition md_t467 : ty := (Ty ["pallet_balances"%string; "types"%string; "Reasons"%string] [] (TVariant [(Variant "Fee"%string [] 0%N []); (Variant "Misc"%string [] 1%N []); (Variant "All"%string [] 2%N [])]) []).
Definition md_t468 : ty := (Ty [] [] (TSequence 466%N) []).
Definition md_t469 : ty := (Ty ["bounded_collections"%string; "bounded_vec"%string; "BoundedVec"%string] [("T"%string,(Some 470%N)); ("S"%string,None)] (TComposite [(Field None 471%N (Some "Vec<T>"%string) [])]) []).
Definition md_t470 : ty := (Ty ["pallet_balances"%string; "types"%string; "ReserveData"%string] [("ReserveIdentifier"%string,(Some 143%N)); ("Balance"%string,(Some 6%N))] (TComposite [(Field (Some "id"%string) 143%N (Some "ReserveIdentifier"%string) []); (Field (Some "amount"%string) 6%N (Some "Balance"%string) [])]) []).
Definition md_t471 : ty := (Ty [] [] (TSequence 470%N) []).
Definition md_t472 : ty := (Ty ["bounded_collections"%string; "bounded_vec"%string; "BoundedVec"%string] [("T"%string,(Some 473%N)); ("S"%string,None)] (TComposite [(Field None 474%N (Some "Vec<T>"%string) [])]) []).
Definition md_t473 : ty := (Ty ["pallet_balances"%string; "types"%string; "IdAmount"%string] [("Id"%string,(Some 47%N)); ("Balance"%string,(Some 6%N))] (TComposite [(Field (Some "id"%string) 47%N (Some "Id"%string) []); (Field (Some "amount"%string) 6%N (Some "Balance"%string) [])]) []).
Definition md_t474 : ty := (Ty [] [] (TSequence 473%N) []).
Definition md_t475 : ty := (Ty ["pallet_balances"%string; "pallet"%string; "Error"%string] [("T"%string,None); ("I"%string,None)] (TVariant [(Variant "VestingBalance"%string [] 0%N ["Vesting balance too high to send value."%string]); (Variant "LiquidityRestrictions"%string [] 1%N ["Account liquidity restrictions prevent withdrawal."%string]); (Variant "InsufficientBalance"%string [] 2%N ["Balance too low to send value."%string]); (Variant "ExistentialDeposit"%string [] 3%N ["Value too low to create account due to existential deposit."%string]); (Variant "Expendability"%string [] 4%N ["Transfer/payment would kill account."%string]); (Variant "ExistingVestingSchedule"%string [] 5%N ["A vesting schedule already exists for this account."%string]); (Variant "DeadAccount"%string [] 6%N ["Beneficiary account must pre-exist."%string]); (Variant "TooManyReserves"%string [] 7%N ["Number of named reserves exceed `MaxReserves`."%string]); (Variant "TooManyHolds"%string [] 8%N ["Number of holds exceed `MaxHolds`."%string]); (Variant "TooManyFreezes"%string [] 9%N ["Number of freezes exceed `MaxFreezes`."%string])]) ["
			Custom [dispatch errors](https://docs.substrate.io/main-docs/build/events-errors/)
			of this pallet.
			"%string]).
Definition md_t476 : ty := (Ty ["sp_arithmetic"%string; "fixed_point"%string; "FixedU128"%string] [] (TComposite [(Field None 6%N (Some "u128"%string) [])]) []).
Definition md_t477 : ty := (Ty ["pallet_transaction_payment"%string; "Releases"%string] [] (TVariant [(Variant "V1Ancient"%string [] 0%N []); (Variant "V2"%string [] 1%N [])]) []).
Definition md_t478 : ty := (Ty ["bounded_collections"%string; "bounded_vec"%string; "BoundedVec"%string] [("T"%string,(Some 0%N)); ("S"%string,None)] (TComposite [(Field None 37%N (Some "Vec<T>"%string) [])]) []).
Definition md_t479 : ty := (Ty ["bounded_collections"%string; "bounded_vec"%string; "BoundedVec"%string] [("T"%string,(Some 480%N)); ("S"%string,None)] (TComposite [(Field None 481%N (Some "Vec<T>"%string) [])]) []).
Definition md_t480 : ty := (Ty ["pallet_collator_selection"%string; "pallet"%string; "CandidateInfo"%string] [("AccountId"%string,(Some 0%N)); ("Balance"%string,(Some 6%N))] (TComposite [(Field (Some "who"%string) 0%N (Some "AccountId"%string) []); (Field (Some "deposit"%string) 6%N (Some "Balance"%string) [])]) []).
Definition md_t481 : ty := (Ty [] [] (TSequence 480%N) []).
Definition md_t482 : ty := (Ty ["pallet_collator_selection"%string; "pallet"%string; "Error"%string] [("T"%string,None)] (TVariant [(Variant "TooManyCandidates"%string [] 0%N ["Too many candidates"%string]); (Variant "TooFewCandidates"%string [] 1%N ["Too few candidates"%string]); (Variant "Unknown"%string [] 2%N ["Unknown error"%string]); (Variant "Permission"%string [] 3%N ["Permission issue"%string]); (Variant "AlreadyCandidate"%string [] 4%N ["User is already a candidate"%string]); (Variant "NotCandidate"%string [] 5%N ["User is not a candidate"%string]); (Variant "TooManyInvulnerables"%string [] 6%N ["Too many invulnerables"%string]); (Variant "AlreadyInvulnerable"%string [] 7%N ["User is already an Invulnerable"%string]); (Variant "NoAssociatedValidatorId"%string [] 8%N ["Account has no associated validator ID"%string]); (Variant "ValidatorNotRegistered"%string [] 9%N ["Validator ID is not yet registered"%string])]) ["
			Custom [dispatch errors](https://docs.substrate.io/main-docs/build/events-errors/)
			of this pallet.
			"%string]).
Definition md_t483 : ty := (Ty [] [] (TSequence 484%N) []).
Definition md_t484 : ty := (Ty [] [] (TTuple [0%N; 86%N]) []).
Definition md_t485 : ty := (Ty [] [] (TTuple [486%N; 13%N]) []).
Definition md_t486 : ty := (Ty ["sp_core"%string; "crypto"%string; "KeyTypeId"%string] [] (TComposite [(Field None 17%N (Some "[u8; 4]"%string) [])]) []).
Definition md_t487 : ty := (Ty ["pallet_session"%string; "pallet"%string; "Error"%string] [("T"%string,None)] (TVariant [(Variant "InvalidProof"%string [] 0%N ["Invalid ownership proof."%string]); (Variant "NoAssociatedValidatorId"%string [] 1%N ["No associated validator ID for account."%string]); (Variant "DuplicatedKey"%string [] 2%N ["Registered duplicate key."%string]); (Variant "NoKeys"%string [] 3%N ["No keys are associated with this account."%string]); (Variant "NoAccount"%string [] 4%N ["Key setting account is not live, so it's impossible to associate keys."%string])]) ["Error for the session pallet."%string]).
Definition md_t488 : ty := (Ty ["bounded_collections"%string; "bounded_vec"%string; "BoundedVec"%string] [("T"%string,(Some 87%N)); ("S"%string,None)] (TComposite [(Field None 489%N (Some "Vec<T>"%string) [])]) []).
Definition md_t489 : ty := (Ty [] [] (TSequence 87%N) []).
Definition md_t490 : ty := (Ty ["sp_consensus_slots"%string; "Slot"%string] [] (TComposite [(Field None 11%N (Some "u64"%string) [])]) []).
Definition md_t491 : ty := (Ty ["bounded_collections"%string; "bounded_vec"%string; "BoundedVec"%string] [("T"%string,(Some 492%N)); ("S"%string,None)] (TComposite [(Field None 493%N (Some "Vec<T>"%string) [])]) []).
Definition md_t492 : ty := (Ty [] [] (TTuple [4%N; 57%N; 0%N]) []).
Definition md_t493 : ty := (Ty [] [] (TSequence 492%N) []).
Definition md_t494 : ty := (Ty [] [] (TTuple [495%N; 6%N]) []).
Definition md_t495 : ty := (Ty ["bounded_collections"%string; "bounded_vec"%string; "BoundedVec"%string] [("T"%string,(Some 0%N)); ("S"%string,None)] (TComposite [(Field None 37%N (Some "Vec<T>"%string) [])]) []).
Definition md_t496 : ty := (Ty ["pallet_democracy"%string; "types"%string; "ReferendumInfo"%string] [("BlockNumber"%string,(Some 4%N)); ("Proposal"%string,(Some 57%N)); ("Balance"%string,(Some 6%N))] (TVariant [(Variant "Ongoing"%string [(Field None 497%N (Some "ReferendumStatus<BlockNumber, Proposal, Balance>"%string) [])] 0%N []); (Variant "Finished"%string [(Field (Some "approved"%string) 45%N (Some "bool"%string) []); (Field (Some "end"%string) 4%N (Some "BlockNumber"%string) [])] 1%N [])]) []).
Definition md_t497 : ty := (Ty ["pallet_democracy"%string; "types"%string; "ReferendumStatus"%string] [("BlockNumber"%string,(Some 4%N)); ("Proposal"%string,(Some 57%N)); ("Balance"%string,(Some 6%N))] (TComposite [(Field (Some "end"%string) 4%N (Some "BlockNumber"%string) []); (Field (Some "proposal"%string) 57%N (Some "Proposal"%string) []); (Field (Some "threshold"%string) 40%N (Some "VoteThreshold"%string) []); (Field (Some "delay"%string) 4%N (Some "BlockNumber"%string) []); (Field (Some "tally"%string) 498%N (Some "Tally<Balance>"%string) [])]) []).
Definition md_t498 : ty := (Ty ["pallet_democracy"%string; "types"%string; "Tally"%string] [("Balance"%string,(Some 6%N))] (TComposite [(Field (Some "ayes"%string) 6%N (Some "Balance"%string) []); (Field (Some "nays"%string) 6%N (Some "Balance"%string) []); (Field (Some "turnout"%string) 6%N (Some "Balance"%string) [])]) []).
Definition md_t499 : ty := (Ty ["pallet_democracy"%string; "vote"%string; "Voting"%string] [("Balance"%string,(Some 6%N)); ("AccountId"%string,(Some 0%N)); ("BlockNumber"%string,(Some 4%N)); ("MaxVotes"%string,None)] (TVariant [(Variant "Direct"%string [(Field (Some "votes"%string) 500%N (Some "BoundedVec<(ReferendumIndex, AccountVote<Balance>), MaxVotes>"%string) []); (Field (Some "delegations"%string) 503%N (Some "Delegations<Balance>"%string) []); (Field (Some "prior"%string) 504%N (Some "PriorLock<BlockNumber, Balance>"%string) [])] 0%N []); (Variant "Delegating"%string [(Field (Some "balance"%string) 6%N (Some "Balance"%string) []); (Field (Some "target"%string) 0%N (Some "AccountId"%string) []); (Field (Some "conviction"%string) 90%N (Some "Conviction"%string) []); (Field (Some "delegations"%string) 503%N (Some "Delegations<Balance>"%string) []); (Field (Some "prior"%string) 504%N (Some "PriorLock<BlockNumber, Balance>"%string) [])] 1%N [])]) []).
Definition md_t500 : ty := (Ty ["bounded_collections"%string; "bounded_vec"%string; "BoundedVec"%string] [("T"%string,(Some 501%N)); ("S"%string,None)] (TComposite [(Field None 502%N (Some "Vec<T>"%string) [])]) []).
Definition md_t501 : ty := (Ty [] [] (TTuple [4%N; 41%N]) []).
Definition md_t502 : ty := (Ty [] [] (TSequence 501%N) []).
Definition md_t503 : ty := (Ty ["pallet_democracy"%string; "types"%string; "Delegations"%string] [("Balance"%string,(Some 6%N))] (TComposite [(Field (Some "votes"%string) 6%N (Some "Balance"%string) []); (Field (Some "capital"%string) 6%N (Some "Balance"%string) [])]) []).
Definition md_t504 : ty := (Ty ["pallet_democracy"%string; "vote"%string; "PriorLock"%string] [("BlockNumber"%string,(Some 4%N)); ("Balance"%string,(Some 6%N))] (TComposite [(Field None 4%N (Some "BlockNumber"%string) []); (Field None 6%N (Some "Balance"%string) [])]) []).
Definition md_t505 : ty := (Ty [] [] (TTuple [57%N; 40%N]) []).
Definition md_t506 : ty := (Ty [] [] (TTuple [4%N; 495%N]) []).
Definition md_t507 : ty := (Ty ["pallet_democracy"%string; "pallet"%string; "Error"%string] [("T"%string,None)] (TVariant [(Variant "ValueLow"%string [] 0%N ["Value too low"%string]); (Variant "ProposalMissing"%string [] 1%N ["Proposal does not exist"%string]); (Variant "AlreadyCanceled"%string [] 2%N ["Cannot cancel the same proposal twice"%string]); (Variant "DuplicateProposal"%string [] 3%N ["Proposal already made"%string]); (Variant "ProposalBlacklisted"%string [] 4%N ["Proposal still blacklisted"%string]); (Variant "NotSimpleMajority"%string [] 5%N ["Next external proposal not simple majority"%string]); (Variant "InvalidHash"%string [] 6%N ["Invalid hash"%string]); (Variant "NoProposal"%string [] 7%N ["No external proposal"%string]); (Variant "AlreadyVetoed"%string [] 8%N ["Identity may not veto a proposal twice"%string]); (Variant "ReferendumInvalid"%string [] 9%N ["Vote given for invalid referendum"%string]); (Variant "NoneWaiting"%string [] 10%N ["No proposals waiting"%string]); (Variant "NotVoter"%string [] 11%N ["The given account did not vote on the referendum."%string]); (Variant "NoPermission"%string [] 12%N ["The actor has no permission to conduct the action."%string]); (Variant "AlreadyDelegating"%string [] 13%N ["The account is already delegating."%string]); (Variant "InsufficientFunds"%string [] 14%N ["Too high a balance was provided that the account cannot afford."%string]); (Variant "NotDelegating"%string [] 15%N ["The account is not currently delegating."%string]); (Variant "VotesExist"%string [] 16%N ["The account currently has votes attached to it and the operation cannot succeed until"%string; "these are removed, either through `unvote` or `reap_vote`."%string]); (Variant "InstantNotAllowed"%string [] 17%N ["The instant referendum origin is currently disallowed."%string]); (Variant "Nonsense"%string [] 18%N ["Delegation to oneself makes no sense."%string]); (Variant "WrongUpperBound"%string [] 19%N ["Invalid upper bound."%string]); (Variant "MaxVotesReached"%string [] 20%N ["Maximum number of votes reached."%string]); (Variant "TooMany"%string [] 21%N ["Maximum number of items reached."%string]); (Variant "VotingPeriodLow"%string [] 22%N ["Voting period too low"%string]); (Variant "PreimageNotExist"%string [] 23%N ["The preimage does not exist."%string])]) ["
			Custom [dispatch errors](https://docs.substrate.io/main-docs/build/events-errors/)
			of this pallet.
			"%string]).
Definition md_t508 : ty := (Ty ["bounded_collections"%string; "bounded_vec"%string; "BoundedVec"%string] [("T"%string,(Some 12%N)); ("S"%string,None)] (TComposite [(Field None 264%N (Some "Vec<T>"%string) [])]) []).
Definition md_t509 : ty := (Ty ["pallet_collective"%string; "Votes"%string] [("AccountId"%string,(Some 0%N)); ("BlockNumber"%string,(Some 4%N))] (TComposite [(Field (Some "index"%string) 4%N (Some "ProposalIndex"%string) []); (Field (Some "threshold"%string) 4%N (Some "MemberCount"%string) []); (Field (Some "ayes"%string) 37%N (Some "Vec<AccountId>"%string) []); (Field (Some "nays"%string) 37%N (Some "Vec<AccountId>"%string) []); (Field (Some "end"%string) 4%N (Some "BlockNumber"%string) [])]) []).
Definition md_t510 : ty := (Ty ["pallet_collective"%string; "pallet"%string; "Error"%string] [("T"%string,None); ("I"%string,None)] (TVariant [(Variant "NotMember"%string [] 0%N ["Account is not a member"%string]); (Variant "DuplicateProposal"%string [] 1%N ["Duplicate proposals not allowed"%string]); (Variant "ProposalMissing"%string [] 2%N ["Proposal must exist"%string]); (Variant "WrongIndex"%string [] 3%N ["Mismatched index"%string]); (Variant "DuplicateVote"%string [] 4%N ["Duplicate vote ignored"%string]); (Variant "AlreadyInitialized"%string [] 5%N ["Members are already initialized!"%string]); (Variant "TooEarly"%string [] 6%N ["The close call was made too early, before the end of the voting."%string]); (Variant "TooManyProposals"%string [] 7%N ["There can only be a maximum of `MaxProposals` active proposals."%string]); (Variant "WrongProposalWeight"%string [] 8%N ["The given weight bound for the proposal was too low."%string]); (Variant "WrongProposalLength"%string [] 9%N ["The given length bound for the proposal was too low."%string])]) ["
			Custom [dispatch errors](https://docs.substrate.io/main-docs/build/events-errors/)
			of this pallet.
			"%string]).
Definition md_t511 : ty := (Ty ["bounded_collections"%string; "bounded_vec"%string; "BoundedVec"%string] [("T"%string,(Some 12%N)); ("S"%string,None)] (TComposite [(Field None 264%N (Some "Vec<T>"%string) [])]) []).
Definition md_t512 : ty := (Ty ["pallet_collective"%string; "pallet"%string; "Error"%string] [("T"%string,None); ("I"%string,None)] (TVariant [(Variant "NotMember"%string [] 0%N ["Account is not a member"%string]); (Variant "DuplicateProposal"%string [] 1%N ["Duplicate proposals not allowed"%string]); (Variant "ProposalMissing"%string [] 2%N ["Proposal must exist"%string]); (Variant "WrongIndex"%string [] 3%N ["Mismatched index"%string]); (Variant "DuplicateVote"%string [] 4%N ["Duplicate vote ignored"%string]); (Variant "AlreadyInitialized"%string [] 5%N ["Members are already initialized!"%string]); (Variant "TooEarly"%string [] 6%N ["The close call was made too early, before the end of the voting."%string]); (Variant "TooManyProposals"%string [] 7%N ["There can only be a maximum of `MaxProposals` active proposals."%string]); (Variant "WrongProposalWeight"%string [] 8%N ["The given weight bound for the proposal was too low."%string]); (Variant "WrongProposalLength"%string [] 9%N ["The given length bound for the proposal was too low."%string])]) ["
			Custom [dispatch errors](https://docs.substrate.io/main-docs/build/events-errors/)
			of this pallet.
			"%string]).
Definition md_t513 : ty := (Ty [] [] (TSequence 514%N) []).
Definition md_t514 : ty := (Ty ["pallet_elections_phragmen"%string; "SeatHolder"%string] [("AccountId"%string,(Some 0%N)); ("Balance"%string,(Some 6%N))] (TComposite [(Field (Some "who"%string) 0%N (Some "AccountId"%string) []); (Field (Some "stake"%string) 6%N (Some "Balance"%string) []); (Field (Some "deposit"%string) 6%N (Some "Balance"%string) [])]) []).
Definition md_t515 : ty := (Ty ["pallet_elections_phragmen"%string; "Voter"%string] [("AccountId"%string,(Some 0%N)); ("Balance"%string,(Some 6%N))] (TComposite [(Field (Some "votes"%string) 37%N (Some "Vec<AccountId>"%string) []); (Field (Some "stake"%string) 6%N (Some "Balance"%string) []); (Field (Some "deposit"%string) 6%N (Some "Balance"%string) [])]) []).
Definition md_t516 : ty := (Ty ["pallet_elections_phragmen"%string; "pallet"%string; "Error"%string] [("T"%string,None)] (TVariant [(Variant "UnableToVote"%string [] 0%N ["Cannot vote when no candidates or members exist."%string]); (Variant "NoVotes"%string [] 1%N ["Must vote for at least one candidate."%string]); (Variant "TooManyVotes"%string [] 2%N ["Cannot vote more than candidates."%string]); (Variant "MaximumVotesExceeded"%string [] 3%N ["Cannot vote more than maximum allowed."%string]); (Variant "LowBalance"%string [] 4%N ["Cannot vote with stake less than minimum balance."%string]); (Variant "UnableToPayBond"%string [] 5%N ["Voter can not pay voting bond."%string]); (Variant "MustBeVoter"%string [] 6%N ["Must be a voter."%string]); (Variant "DuplicatedCandidate"%string [] 7%N ["Duplicated candidate submission."%string]); (Variant "TooManyCandidates"%string [] 8%N ["Too many candidates have been created."%string]); (Variant "MemberSubmit"%string [] 9%N ["Member cannot re-submit candidacy."%string]); (Variant "RunnerUpSubmit"%string [] 10%N ["Runner cannot re-submit candidacy."%string]); (Variant "InsufficientCandidateFunds"%string [] 11%N ["Candidate does not have enough funds."%string]); (Variant "NotMember"%string [] 12%N ["Not a member."%string]); (Variant "InvalidWitnessData"%string [] 13%N ["The provided count of number of candidates is incorrect."%string]); (Variant "InvalidVoteCount"%string [] 14%N ["The provided count of number of votes is incorrect."%string]); (Variant "InvalidRenouncing"%string [] 15%N ["The renouncing origin presented a wrong `Renouncing` parameter."%string]); (Variant "InvalidReplacement"%string [] 16%N ["Prediction regarding replacement after member removal is wrong."%string])]) ["
			Custom [dispatch errors](https://docs.substrate.io/main-docs/build/events-errors/)
			of this pallet.
			"%string]).
Definition md_t517 : ty := (Ty ["bounded_collections"%string; "bounded_vec"%string; "BoundedVec"%string] [("T"%string,(Some 0%N)); ("S"%string,None)] (TComposite [(Field None 37%N (Some "Vec<T>"%string) [])]) []).
Definition md_t518 : ty := (Ty ["pallet_membership"%string; "pallet"%string; "Error"%string] [("T"%string,None); ("I"%string,None)] (TVariant [(Variant "AlreadyMember"%string [] 0%N ["Already a member."%string]); (Variant "NotMember"%string [] 1%N ["Not a member."%string]); (Variant "TooManyMembers"%string [] 2%N ["Too many members."%string])]) ["
			Custom [dispatch errors](https://docs.substrate.io/main-docs/build/events-errors/)
			of this pallet.
			"%string]).
Definition md_t519 : ty := (Ty ["bounded_collections"%string; "bounded_vec"%string; "BoundedVec"%string] [("T"%string,(Some 0%N)); ("S"%string,None)] (TComposite [(Field None 37%N (Some "Vec<T>"%string) [])]) []).
Definition md_t520 : ty := (Ty ["pallet_membership"%string; "pallet"%string; "Error"%string] [("T"%string,None); ("I"%string,None)] (TVariant [(Variant "AlreadyMember"%string [] 0%N ["Already a member."%string]); (Variant "NotMember"%string [] 1%N ["Not a member."%string]); (Variant "TooManyMembers"%string [] 2%N ["Too many members."%string])]) ["
			Custom [dispatch errors](https://docs.substrate.io/main-docs/build/events-errors/)
			of this pallet.
			"%string]).
Definition md_t521 : ty := (Ty [] [] (TTuple [0%N; 56%N]) []).
Definition md_t522 : ty := (Ty ["pallet_conviction_voting"%string; "vote"%string; "Voting"%string] [("Balance"%string,(Some 6%N)); ("AccountId"%string,(Some 0%N)); ("BlockNumber"%string,(Some 4%N)); ("PollIndex"%string,(Some 4%N)); ("MaxVotes"%string,None)] (TVariant [(Variant "Casting"%string [(Field None 523%N (Some "Casting<Balance, BlockNumber, PollIndex, MaxVotes>"%string) [])] 0%N []); (Variant "Delegating"%string [(Field None 529%N (Some "Delegating<Balance, AccountId, BlockNumber>"%string) [])] 1%N [])]) []).
Definition md_t523 : ty := (Ty ["pallet_conviction_voting"%string; "vote"%string; "Casting"%string] [("Balance"%string,(Some 6%N)); ("BlockNumber"%string,(Some 4%N)); ("PollIndex"%string,(Some 4%N)); ("MaxVotes"%string,None)] (TComposite [(Field (Some "votes"%string) 524%N (Some "BoundedVec<(PollIndex, AccountVote<Balance>), MaxVotes>"%string) []); (Field (Some "delegations"%string) 527%N (Some "Delegations<Balance>"%string) []); (Field (Some "prior"%string) 528%N (Some "PriorLock<BlockNumber, Balance>"%string) [])]) []).
Definition md_t524 : ty := (Ty ["bounded_collections"%string; "bounded_vec"%string; "BoundedVec"%string] [("T"%string,(Some 525%N)); ("S"%string,None)] (TComposite [(Field None 526%N (Some "Vec<T>"%string) [])]) []).
Definition md_t525 : ty := (Ty [] [] (TTuple [4%N; 101%N]) []).
Definition md_t526 : ty := (Ty [] [] (TSequence 525%N) []).
Definition md_t527 : ty := (Ty ["pallet_conviction_voting"%string; "types"%string; "Delegations"%string] [("Balance"%string,(Some 6%N))] (TComposite [(Field (Some "votes"%string) 6%N (Some "Balance"%string) []); (Field (Some "capital"%string) 6%N (Some "Balance"%string) [])]) []).
Definition md_t528 : ty := (Ty ["pallet_conviction_voting"%string; "vote"%string; "PriorLock"%string] [("BlockNumber"%string,(Some 4%N)); ("Balance"%string,(Some 6%N))] (TComposite [(Field None 4%N (Some "BlockNumber"%string) []); (Field None 6%N (Some "Balance"%string) [])]) []).
Definition md_t529 : ty := (Ty ["pallet_conviction_voting"%string; "vote"%string; "Delegating"%string] [("Balance"%string,(Some 6%N)); ("AccountId"%string,(Some 0%N)); ("BlockNumber"%string,(Some 4%N))] (TComposite [(Field (Some "balance"%string) 6%N (Some "Balance"%string) []); (Field (Some "target"%string) 0%N (Some "AccountId"%string) []); (Field (Some "conviction"%string) 103%N (Some "Conviction"%string) []); (Field (Some "delegations"%string) 527%N (Some "Delegations<Balance>"%string) []); (Field (Some "prior"%string) 528%N (Some "PriorLock<BlockNumber, Balance>"%string) [])]) []).
Definition md_t530 : ty := (Ty ["bounded_collections"%string; "bounded_vec"%string; "BoundedVec"%string] [("T"%string,(Some 531%N)); ("S"%string,None)] (TComposite [(Field None 532%N (Some "Vec<T>"%string) [])]) []).
Definition md_t531 : ty := (Ty [] [] (TTuple [56%N; 6%N]) []).
Definition md_t532 : ty := (Ty [] [] (TSequence 531%N) []).
Definition md_t533 : ty := (Ty ["pallet_conviction_voting"%string; "pallet"%string; "Error"%string] [("T"%string,None); ("I"%string,None)] (TVariant [(Variant "NotOngoing"%string [] 0%N ["Poll is not ongoing."%string]); (Variant "NotVoter"%string [] 1%N ["The given account did not vote on the poll."%string]); (Variant "NoPermission"%string [] 2%N ["The actor has no permission to conduct the action."%string]); (Variant "NoPermissionYet"%string [] 3%N ["The actor has no permission to conduct the action right now but will do in the future."%string]); (Variant "AlreadyDelegating"%string [] 4%N ["The account is already delegating."%string]); (Variant "AlreadyVoting"%string [] 5%N ["The account currently has votes attached to it and the operation cannot succeed until"%string; "these are removed, either through `unvote` or `reap_vote`."%string]); (Variant "InsufficientFunds"%string [] 6%N ["Too high a balance was provided that the account cannot afford."%string]); (Variant "NotDelegating"%string [] 7%N ["The account is not currently delegating."%string]); (Variant "Nonsense"%string [] 8%N ["Delegation to oneself makes no sense."%string]); (Variant "MaxVotesReached"%string [] 9%N ["Maximum number of votes reached."%string]); (Variant "ClassNeeded"%string [] 10%N ["The class must be supplied since it is not easily determinable from the state."%string]); (Variant "BadClass"%string [] 11%N ["The class ID supplied is invalid."%string])]) ["
			Custom [dispatch errors](https://docs.substrate.io/main-docs/build/events-errors/)
			of this pallet.
			"%string]).
Definition md_t534 : ty := (Ty ["pallet_referenda"%string; "types"%string; "ReferendumInfo"%string] [("TrackId"%string,(Some 56%N)); ("RuntimeOrigin"%string,(Some 106%N)); ("Moment"%string,(Some 4%N)); ("Call"%string,(Some 57%N)); ("Balance"%string,(Some 6%N)); ("Tally"%string,(Some 371%N)); ("AccountId"%string,(Some 0%N)); ("ScheduleAddress"%string,(Some 194%N))] (TVariant [(Variant "Ongoing"%string [(Field None 535%N (Some "ReferendumStatus<TrackId, RuntimeOrigin, Moment, Call, Balance, Tally,
AccountId, ScheduleAddress,>"%string) [])] 0%N []); (Variant "Approved"%string [(Field None 4%N (Some "Moment"%string) []); (Field None 537%N (Some "Option<Deposit<AccountId, Balance>>"%string) []); (Field None 537%N (Some "Option<Deposit<AccountId, Balance>>"%string) [])] 1%N []); (Variant "Rejected"%string [(Field None 4%N (Some "Moment"%string) []); (Field None 537%N (Some "Option<Deposit<AccountId, Balance>>"%string) []); (Field None 537%N (Some "Option<Deposit<AccountId, Balance>>"%string) [])] 2%N []); (Variant "Cancelled"%string [(Field None 4%N (Some "Moment"%string) []); (Field None 537%N (Some "Option<Deposit<AccountId, Balance>>"%string) []); (Field None 537%N (Some "Option<Deposit<AccountId, Balance>>"%string) [])] 3%N []); (Variant "TimedOut"%string [(Field None 4%N (Some "Moment"%string) []); (Field None 537%N (Some "Option<Deposit<AccountId, Balance>>"%string) []); (Field None 537%N (Some "Option<Deposit<AccountId, Balance>>"%string) [])] 4%N []); (Variant "Killed"%string [(Field None 4%N (Some "Moment"%string) [])] 5%N [])]) []).
Definition md_t535 : ty := (Ty ["pallet_referenda"%string; "types"%string; "ReferendumStatus"%string] [("TrackId"%string,(Some 56%N)); ("RuntimeOrigin"%string,(Some 106%N)); ("Moment"%string,(Some 4%N)); ("Call"%string,(Some 57%N)); ("Balance"%string,(Some 6%N)); ("Tally"%string,(Some 371%N)); ("AccountId"%string,(Some 0%N)); ("ScheduleAddress"%string,(Some 194%N))] (TComposite [(Field (Some "track"%string) 56%N (Some "TrackId"%string) []); (Field (Some "origin"%string) 106%N (Some "RuntimeOrigin"%string) []); (Field (Some "proposal"%string) 57%N (Some "Call"%string) []); (Field (Some "enactment"%string) 121%N (Some "DispatchTime<Moment>"%string) []); (Field (Some "submitted"%string) 4%N (Some "Moment"%string) []); (Field (Some "submission_deposit"%string) 536%N (Some "Deposit<AccountId, Balance>"%string) []); (Field (Some "decision_deposit"%string) 537%N (Some "Option<Deposit<AccountId, Balance>>"%string) []); (Field (Some "deciding"%string) 538%N (Some "Option<DecidingStatus<Moment>>"%string) []); (Field (Some "tally"%string) 371%N (Some "Tally"%string) []); (Field (Some "in_queue"%string) 45%N (Some "bool"%string) []); (Field (Some "alarm"%string) 540%N (Some "Option<(Moment, ScheduleAddress)>"%string) [])]) []).
Definition md_t536 : ty := (Ty ["pallet_referenda"%string; "types"%string; "Deposit"%string] [("AccountId"%string,(Some 0%N)); ("Balance"%string,(Some 6%N))] (TComposite [(Field (Some "who"%string) 0%N (Some "AccountId"%string) []); (Field (Some "amount"%string) 6%N (Some "Balance"%string) [])]) []).
Definition md_t537 : ty := (Ty ["Option"%string] [("T"%string,(Some 536%N))] (TVariant [(Variant "None"%string [] 0%N []); (Variant "Some"%string [(Field None 536%N None [])] 1%N [])]) []).
Definition md_t538 : ty := (Ty ["Option"%string] [("T"%string,(Some 539%N))] (TVariant [(Variant "None"%string [] 0%N []); (Variant "Some"%string [(Field None 539%N None [])] 1%N [])]) []).
Definition md_t539 : ty := (Ty ["pallet_referenda"%string; "types"%string; "DecidingStatus"%string] [("BlockNumber"%string,(Some 4%N))] (TComposite [(Field (Some "since"%string) 4%N (Some "BlockNumber"%string) []); (Field (Some "confirming"%string) 91%N (Some "Option<BlockNumber>"%string) [])]) []).
Definition md_t540 : ty := (Ty ["Option"%string] [("T"%string,(Some 541%N))] (TVariant [(Variant "None"%string [] 0%N []); (Variant "Some"%string [(Field None 541%N None [])] 1%N [])]) []).
Definition md_t541 : ty := (Ty [] [] (TTuple [4%N; 194%N]) []).
Definition md_t542 : ty := (Ty ["bounded_collections"%string; "bounded_vec"%string; "BoundedVec"%string] [("T"%string,(Some 543%N)); ("S"%string,None)] (TComposite [(Field None 544%N (Some "Vec<T>"%string) [])]) []).
Definition md_t543 : ty := (Ty [] [] (TTuple [4%N; 6%N]) []).
Definition md_t544 : ty := (Ty [] [] (TSequence 543%N) []).
Definition md_t545 : ty := (Ty [] [] (TSequence 546%N) []).
Definition md_t546 : ty := (Ty [] [] (TTuple [56%N; 547%N]) []).
Definition md_t547 : ty := (Ty ["pallet_referenda"%string; "types"%string; "TrackInfo"%string] [("Balance"%string,(Some 6%N)); ("Moment"%string,(Some 4%N))] (TComposite [(Field (Some "name"%string) 436%N (Some "&'static str"%string) []); (Field (Some "max_deciding"%string) 4%N (Some "u32"%string) []); (Field (Some "decision_deposit"%string) 6%N (Some "Balance"%string) []); (Field (Some "prepare_period"%string) 4%N (Some "Moment"%string) []); (Field (Some "decision_period"%string) 4%N (Some "Moment"%string) []); (Field (Some "confirm_period"%string) 4%N (Some "Moment"%string) []); (Field (Some "min_enactment_period"%string) 4%N (Some "Moment"%string) []); (Field (Some "min_approval"%string) 548%N (Some "Curve"%string) []); (Field (Some "min_support"%string) 548%N (Some "Curve"%string) [])]) []).
Definition md_t548 : ty := (Ty ["pallet_referenda"%string; "types"%string; "Curve"%string] [] (TVariant [(Variant "LinearDecreasing"%string [(Field (Some "length"%string) 327%N (Some "Perbill"%string) []); (Field (Some "floor"%string) 327%N (Some "Perbill"%string) []); (Field (Some "ceil"%string) 327%N (Some "Perbill"%string) [])] 0%N []); (Variant "SteppedDecreasing"%string [(Field (Some "begin"%string) 327%N (Some "Perbill"%string) []); (Field (Some "end"%string) 327%N (Some "Perbill"%string) []); (Field (Some "step"%string) 327%N (Some "Perbill"%string) []); (Field (Some "period"%string) 327%N (Some "Perbill"%string) [])] 1%N []); (Variant "Reciprocal"%string [(Field (Some "factor"%string) 549%N (Some "FixedI64"%string) []); (Field (Some "x_offset"%string) 549%N (Some "FixedI64"%string) []); (Field (Some "y_offset"%string) 549%N (Some "FixedI64"%string) [])] 2%N [])]) []).
Definition md_t549 : ty := (Ty ["sp_arithmetic"%string; "fixed_point"%string; "FixedI64"%string] [] (TComposite [(Field None 550%N (Some "i64"%string) [])]) []).
Definition md_t550 : ty := (Ty [] [] (TPrimitive (PrI U64)) []).
Definition md_t551 : ty := (Ty ["pallet_referenda"%string; "pallet"%string; "Error"%string] [("T"%string,None); ("I"%string,None)] (TVariant [(Variant "NotOngoing"%string [] 0%N ["Referendum is not ongoing."%string]); (Variant "HasDeposit"%string [] 1%N ["Referendum's decision deposit is already paid."%string]); (Variant "BadTrack"%string [] 2%N ["The track identifier given was invalid."%string]); (Variant "Full"%string [] 3%N ["There are already a full complement of referenda in progress for this track."%string]); (Variant "QueueEmpty"%string [] 4%N ["The queue of the track is empty."%string]); (Variant "BadReferendum"%string [] 5%N ["The referendum index provided is invalid in this context."%string]); (Variant "NothingToDo"%string [] 6%N ["There was nothing to do in the advancement."%string]); (Variant "NoTrack"%string [] 7%N ["No track exists for the proposal origin."%string]); (Variant "Unfinished"%string [] 8%N ["Any deposit cannot be refunded until after the decision is over."%string]); (Variant "NoPermission"%string [] 9%N ["The deposit refunder is not the depositor."%string]); (Variant "NoDeposit"%string [] 10%N ["The deposit cannot be refunded since none was made."%string]); (Variant "BadStatus"%string [] 11%N ["The referendum status is invalid for this operation."%string]); (Variant "PreimageNotExist"%string [] 12%N ["The preimage does not exist."%string])]) ["
			Custom [dispatch errors](https://docs.substrate.io/main-docs/build/events-errors/)
			of this pallet.
			"%string]).
Definition md_t552 : ty := (Ty ["pallet_whitelist"%string; "pallet"%string; "Error"%string] [("T"%string,None)] (TVariant [(Variant "UnavailablePreImage"%string [] 0%N ["The preimage of the call hash could not be loaded."%string]); (Variant "UndecodableCall"%string [] 1%N ["The call could not be decoded."%string]); (Variant "InvalidCallWeightWitness"%string [] 2%N ["The weight of the decoded call was higher than the witness."%string]); (Variant "CallIsNotWhitelisted"%string [] 3%N ["The call was not whitelisted."%string]); (Variant "CallAlreadyWhitelisted"%string [] 4%N ["The call was already whitelisted; No-Op."%string])]) ["
			Custom [dispatch errors](https://docs.substrate.io/main-docs/build/events-errors/)
			of this pallet.
			"%string]).
Definition md_t553 : ty := (Ty [] [] (TSequence 554%N) []).
Definition md_t554 : ty := (Ty ["cumulus_pallet_xcmp_queue"%string; "InboundChannelDetails"%string] [] (TComposite [(Field (Some "sender"%string) 77%N (Some "ParaId"%string) []); (Field (Some "state"%string) 555%N (Some "InboundState"%string) []); (Field (Some "message_metadata"%string) 556%N (Some "Vec<(RelayBlockNumber, XcmpMessageFormat)>"%string) [])]) []).
Definition md_t555 : ty := (Ty ["cumulus_pallet_xcmp_queue"%string; "InboundState"%string] [] (TVariant [(Variant "Ok"%string [] 0%N []); (Variant "Suspended"%string [] 1%N [])]) []).
Definition md_t556 : ty := (Ty [] [] (TSequence 557%N) []).
Definition md_t557 : ty := (Ty [] [] (TTuple [4%N; 558%N]) []).
Definition md_t558 : ty := (Ty ["polkadot_parachain"%string; "primitives"%string; "XcmpMessageFormat"%string] [] (TVariant [(Variant "ConcatenatedVersionedXcm"%string [] 0%N []); (Variant "ConcatenatedEncodedBlob"%string [] 1%N []); (Variant "Signals"%string [] 2%N [])]) []).
Definition md_t559 : ty := (Ty [] [] (TTuple [77%N; 4%N]) []).
Definition md_t560 : ty := (Ty [] [] (TSequence 561%N) []).
Definition md_t561 : ty := (Ty ["cumulus_pallet_xcmp_queue"%string; "OutboundChannelDetails"%string] [] (TComposite [(Field (Some "recipient"%string) 77%N (Some "ParaId"%string) []); (Field (Some "state"%string) 562%N (Some "OutboundState"%string) []); (Field (Some "signals_exist"%string) 45%N (Some "bool"%string) []); (Field (Some "first_index"%string) 56%N (Some "u16"%string) []); (Field (Some "last_index"%string) 56%N (Some "u16"%string) [])]) []).
Definition md_t562 : ty := (Ty ["cumulus_pallet_xcmp_queue"%string; "OutboundState"%string] [] (TVariant [(Variant "Ok"%string [] 0%N []); (Variant "Suspended"%string [] 1%N [])]) []).
Definition md_t563 : ty := (Ty [] [] (TTuple [77%N; 56%N]) []).
Definition md_t564 : ty := (Ty ["cumulus_pallet_xcmp_queue"%string; "QueueConfigData"%string] [] (TComposite [(Field (Some "suspend_threshold"%string) 4%N (Some "u32"%string) []); (Field (Some "drop_threshold"%string) 4%N (Some "u32"%string) []); (Field (Some "resume_threshold"%string) 4%N (Some "u32"%string) []); (Field (Some "threshold_weight"%string) 9%N (Some "Weight"%string) []); (Field (Some "weight_restrict_decay"%string) 9%N (Some "Weight"%string) []); (Field (Some "xcmp_max_individual_weight"%string) 9%N (Some "Weight"%string) [])]) []).
Definition md_t565 : ty := (Ty [] [] (TTuple [77%N; 4%N; 13%N]) []).
Definition md_t566 : ty := (Ty ["cumulus_pallet_xcmp_queue"%string; "pallet"%string; "Error"%string] [("T"%string,None)] (TVariant [(Variant "FailedToSend"%string [] 0%N ["Failed to send XCM message."%string]); (Variant "BadXcmOrigin"%string [] 1%N ["Bad XCM origin."%string]); (Variant "BadXcm"%string [] 2%N ["Bad XCM data."%string]); (Variant "BadOverweightIndex"%string [] 3%N ["Bad overweight index."%string]); (Variant "WeightOverLimit"%string [] 4%N ["Provided weight is possibly not enough to execute the message."%string])]) ["
			Custom [dispatch errors](https://docs.substrate.io/main-docs/build/events-errors/)
			of this pallet.
			"%string]).
Definition md_t567 : ty := (Ty ["pallet_xcm"%string; "pallet"%string; "QueryStatus"%string] [("BlockNumber"%string,(Some 4%N))] (TVariant [(Variant "Pending"%string [(Field (Some "responder"%string) 125%N (Some "VersionedMultiLocation"%string) []); (Field (Some "maybe_match_querier"%string) 568%N (Some "Option<VersionedMultiLocation>"%string) []); (Field (Some "maybe_notify"%string) 569%N (Some "Option<(u8, u8)>"%string) []); (Field (Some "timeout"%string) 4%N (Some "BlockNumber"%string) [])] 0%N []); (Variant "VersionNotifier"%string [(Field (Some "origin"%string) 125%N (Some "VersionedMultiLocation"%string) []); (Field (Some "is_active"%string) 45%N (Some "bool"%string) [])] 1%N []); (Variant "Ready"%string [(Field (Some "response"%string) 571%N (Some "VersionedResponse"%string) []); (Field (Some "at"%string) 4%N (Some "BlockNumber"%string) [])] 2%N [])]) []).
Definition md_t568 : ty := (Ty ["Option"%string] [("T"%string,(Some 125%N))] (TVariant [(Variant "None"%string [] 0%N []); (Variant "Some"%string [(Field None 125%N None [])] 1%N [])]) []).
Definition md_t569 : ty := (Ty ["Option"%string] [("T"%string,(Some 570%N))] (TVariant [(Variant "None"%string [] 0%N []); (Variant "Some"%string [(Field None 570%N None [])] 1%N [])]) []).
Definition md_t570 : ty := (Ty [] [] (TTuple [2%N; 2%N]) []).
Definition md_t571 : ty := (Ty ["xcm"%string; "VersionedResponse"%string] [] (TVariant [(Variant "V2"%string [(Field None 145%N (Some "v2::Response"%string) [])] 2%N []); (Variant "V3"%string [(Field None 164%N (Some "v3::Response"%string) [])] 3%N [])]) []).
Definition md_t572 : ty := (Ty [] [] (TTuple [4%N; 125%N]) []).
Definition md_t573 : ty := (Ty [] [] (TTuple [11%N; 9%N; 4%N]) []).
Definition md_t574 : ty := (Ty ["bounded_collections"%string; "bounded_vec"%string; "BoundedVec"%string] [("T"%string,(Some 575%N)); ("S"%string,None)] (TComposite [(Field None 576%N (Some "Vec<T>"%string) [])]) []).
Definition md_t575 : ty := (Ty [] [] (TTuple [125%N; 4%N]) []).
Definition md_t576 : ty := (Ty [] [] (TSequence 575%N) []).
Definition md_t577 : ty := (Ty ["pallet_xcm"%string; "pallet"%string; "VersionMigrationStage"%string] [] (TVariant [(Variant "MigrateSupportedVersion"%string [] 0%N []); (Variant "MigrateVersionNotifiers"%string [] 1%N []); (Variant "NotifyCurrentTargets"%string [(Field None 351%N (Some "Option<Vec<u8>>"%string) [])] 2%N []); (Variant "MigrateAndNotifyOldTargets"%string [] 3%N [])]) []).
Definition md_t578 : ty := (Ty [] [] (TTuple [4%N; 0%N; 579%N]) []).
Definition md_t579 : ty := (Ty ["xcm"%string; "VersionedAssetId"%string] [] (TVariant [(Variant "V3"%string [(Field None 161%N (Some "v3::AssetId"%string) [])] 3%N [])]) []).
Definition md_t580 : ty := (Ty ["pallet_xcm"%string; "pallet"%string; "RemoteLockedFungibleRecord"%string] [] (TComposite [(Field (Some "amount"%string) 6%N (Some "u128"%string) []); (Field (Some "owner"%string) 125%N (Some "VersionedMultiLocation"%string) []); (Field (Some "locker"%string) 125%N (Some "VersionedMultiLocation"%string) []); (Field (Some "users"%string) 4%N (Some "u32"%string) [])]) []).
Definition md_t581 : ty := (Ty ["bounded_collections"%string; "bounded_vec"%string; "BoundedVec"%string] [("T"%string,(Some 582%N)); ("S"%string,None)] (TComposite [(Field None 583%N (Some "Vec<T>"%string) [])]) []).
Definition md_t582 : ty := (Ty [] [] (TTuple [6%N; 125%N]) []).
Definition md_t583 : ty := (Ty [] [] (TSequence 582%N) []).
Definition md_t584 : ty := (Ty ["pallet_xcm"%string; "pallet"%string; "Error"%string] [("T"%string,None)] (TVariant [(Variant "Unreachable"%string [] 0%N ["The desired destination was unreachable, generally because there is a no way of routing"%string; "to it."%string]); (Variant "SendFailure"%string [] 1%N ["There was some other issue (i.e. not to do with routing) in sending the message. Perhaps"%string; "a lack of space for buffering the message."%string]); (Variant "Filtered"%string [] 2%N ["The message execution fails the filter."%string]); (Variant "UnweighableMessage"%string [] 3%N ["The message's weight could not be determined."%string]); (Variant "DestinationNotInvertible"%string [] 4%N ["The destination `MultiLocation` provided cannot be inverted."%string]); (Variant "Empty"%string [] 5%N ["The assets to be sent are empty."%string]); (Variant "CannotReanchor"%string [] 6%N ["Could not re-anchor the assets to declare the fees for the destination chain."%string]); (Variant "TooManyAssets"%string [] 7%N ["Too many assets have been attempted for transfer."%string]); (Variant "InvalidOrigin"%string [] 8%N ["Origin is invalid for sending."%string]); (Variant "BadVersion"%string [] 9%N ["The version of the `Versioned` value used is not able to be interpreted."%string]); (Variant "BadLocation"%string [] 10%N ["The given location could not be used (e.g. because it cannot be expressed in the"%string; "desired version of XCM)."%string]); (Variant "NoSubscription"%string [] 11%N ["The referenced subscription could not be found."%string]); (Variant "AlreadySubscribed"%string [] 12%N ["The location is invalid since it already has a subscription from us."%string]); (Variant "InvalidAsset"%string [] 13%N ["Invalid asset for the operation."%string]); (Variant "LowBalance"%string [] 14%N ["The owner does not own (all) of the asset that they wish to do the operation on."%string]); (Variant "TooManyLocks"%string [] 15%N ["The asset owner has too many locks on the asset."%string]); (Variant "AccountNotSovereign"%string [] 16%N ["The given account is not an identifiable sovereign account for any location."%string]); (Variant "FeesNotMet"%string [] 17%N ["The operation required fees to be paid which the initiator could not meet."%string]); (Variant "LockNotFound"%string [] 18%N ["A remote lock with the corresponding data could not be found."%string]); (Variant "InUse"%string [] 19%N ["The unlock operation cannot succeed because there are still users of the lock."%string])]) ["
			Custom [dispatch errors](https://docs.substrate.io/main-docs/build/events-errors/)
			of this pallet.
			"%string]).
Definition md_t585 : ty := (Ty ["cumulus_pallet_xcm"%string; "pallet"%string; "Error"%string] [("T"%string,None)] (TVariant []) ["
			Custom [dispatch errors](https://docs.substrate.io/main-docs/build/events-errors/)
			of this pallet.
			"%string]).
Definition md_t586 : ty := (Ty ["cumulus_pallet_dmp_queue"%string; "ConfigData"%string] [] (TComposite [(Field (Some "max_individual"%string) 9%N (Some "Weight"%string) [])]) []).
Definition md_t587 : ty := (Ty ["cumulus_pallet_dmp_queue"%string; "PageIndexData"%string] [] (TComposite [(Field (Some "begin_used"%string) 4%N (Some "PageCounter"%string) []); (Field (Some "end_used"%string) 4%N (Some "PageCounter"%string) []); (Field (Some "overweight_count"%string) 11%N (Some "OverweightIndex"%string) [])]) []).
Definition md_t588 : ty := (Ty [] [] (TSequence 589%N) []).
Definition md_t589 : ty := (Ty [] [] (TTuple [4%N; 13%N]) []).
Definition md_t590 : ty := (Ty ["cumulus_pallet_dmp_queue"%string; "pallet"%string; "Error"%string] [("T"%string,None)] (TVariant [(Variant "Unknown"%string [] 0%N ["The message index given is unknown."%string]); (Variant "OverLimit"%string [] 1%N ["The amount of weight given is possibly not enough for executing the message."%string])]) ["
			Custom [dispatch errors](https://docs.substrate.io/main-docs/build/events-errors/)
			of this pallet.
			"%string]).
Definition md_t591 : ty := (Ty ["pallet_utility"%string; "pallet"%string; "Error"%string] [("T"%string,None)] (TVariant [(Variant "TooManyCalls"%string [] 0%N ["Too many calls batched."%string])]) ["
			Custom [dispatch errors](https://docs.substrate.io/main-docs/build/events-errors/)
			of this pallet.
			"%string]).
Definition md_t592 : ty := (Ty ["bounded_collections"%string; "bounded_vec"%string; "BoundedVec"%string] [("T"%string,(Some 593%N)); ("S"%string,None)] (TComposite [(Field None 595%N (Some "Vec<T>"%string) [])]) []).
Definition md_t593 : ty := (Ty ["Option"%string] [("T"%string,(Some 594%N))] (TVariant [(Variant "None"%string [] 0%N []); (Variant "Some"%string [(Field None 594%N None [])] 1%N [])]) []).
Definition md_t594 : ty := (Ty ["pallet_scheduler"%string; "Scheduled"%string] [("Name"%string,(Some 1%N)); ("Call"%string,(Some 57%N)); ("BlockNumber"%string,(Some 4%N)); ("PalletsOrigin"%string,(Some 106%N)); ("AccountId"%string,(Some 0%N))] (TComposite [(Field (Some "maybe_id"%string) 32%N (Some "Option<Name>"%string) []); (Field (Some "priority"%string) 2%N (Some "schedule::Priority"%string) []); (Field (Some "call"%string) 57%N (Some "Call"%string) []); (Field (Some "maybe_periodic"%string) 193%N (Some "Option<schedule::Period<BlockNumber>>"%string) []); (Field (Some "origin"%string) 106%N (Some "PalletsOrigin"%string) [])]) []).
Definition md_t595 : ty := (Ty [] [] (TSequence 593%N) []).
Definition md_t596 : ty := (Ty ["pallet_scheduler"%string; "pallet"%string; "Error"%string] [("T"%string,None)] (TVariant [(Variant "FailedToSchedule"%string [] 0%N ["Failed to schedule a call"%string]); (Variant "NotFound"%string [] 1%N ["Cannot find the scheduled call."%string]); (Variant "TargetBlockNumberInPast"%string [] 2%N ["Given target block number is in the past."%string]); (Variant "RescheduleNoChange"%string [] 3%N ["Reschedule failed because it does not change scheduled time."%string]); (Variant "Named"%string [] 4%N ["Attempt to use a non-named function on a named task."%string])]) ["
			Custom [dispatch errors](https://docs.substrate.io/main-docs/build/events-errors/)
			of this pallet.
			"%string]).
Definition md_t597 : ty := (Ty [] [] (TTuple [598%N; 6%N]) []).
Definition md_t598 : ty := (Ty ["bounded_collections"%string; "bounded_vec"%string; "BoundedVec"%string] [("T"%string,(Some 599%N)); ("S"%string,None)] (TComposite [(Field None 600%N (Some "Vec<T>"%string) [])]) []).
Definition md_t599 : ty := (Ty ["pallet_proxy"%string; "ProxyDefinition"%string] [("AccountId"%string,(Some 0%N)); ("ProxyType"%string,(Some 197%N)); ("BlockNumber"%string,(Some 4%N))] (TComposite [(Field (Some "delegate"%string) 0%N (Some "AccountId"%string) []); (Field (Some "proxy_type"%string) 197%N (Some "ProxyType"%string) []); (Field (Some "delay"%string) 4%N (Some "BlockNumber"%string) [])]) []).
Definition md_t600 : ty := (Ty [] [] (TSequence 599%N) []).
Definition md_t601 : ty := (Ty [] [] (TTuple [602%N; 6%N]) []).
Definition md_t602 : ty := (Ty ["bounded_collections"%string; "bounded_vec"%string; "BoundedVec"%string] [("T"%string,(Some 603%N)); ("S"%string,None)] (TComposite [(Field None 604%N (Some "Vec<T>"%string) [])]) []).
Definition md_t603 : ty := (Ty ["pallet_proxy"%string; "Announcement"%string] [("AccountId"%string,(Some 0%N)); ("Hash"%string,(Some 12%N)); ("BlockNumber"%string,(Some 4%N))] (TComposite [(Field (Some "real"%string) 0%N (Some "AccountId"%string) []); (Field (Some "call_hash"%string) 12%N (Some "Hash"%string) []); (Field (Some "height"%string) 4%N (Some "BlockNumber"%string) [])]) []).
Definition md_t604 : ty := (Ty [] [] (TSequence 603%N) []).
Definition md_t605 : ty := (Ty ["pallet_proxy"%string; "pallet"%string; "Error"%string] [("T"%string,None)] (TVariant [(Variant "TooMany"%string [] 0%N ["There are too many proxies registered or too many announcements pending."%string]); (Variant "NotFound"%string [] 1%N ["Proxy registration not found."%string]); (Variant "NotProxy"%string [] 2%N ["Sender is not a proxy of the account to be proxied."%string]); (Variant "Unproxyable"%string [] 3%N ["A call which is incompatible with the proxy type's filter was attempted."%string]); (Variant "Duplicate"%string [] 4%N ["Account is already a proxy."%string]); (Variant "NoPermission"%string [] 5%N ["Call may not be made by proxy because it may escalate its privileges."%string]); (Variant "Unannounced"%string [] 6%N ["Announcement, if made at all, was made too recently."%string]); (Variant "NoSelfProxy"%string [] 7%N ["Cannot add self as proxy."%string])]) ["
			Custom [dispatch errors](https://docs.substrate.io/main-docs/build/events-errors/)
			of this pallet.
			"%string]).
Definition md_t606 : ty := (Ty [] [] (TTuple [0%N; 1%N]) []).
Definition md_t607 : ty := (Ty ["pallet_multisig"%string; "Multisig"%string] [("BlockNumber"%string,(Some 4%N)); ("Balance"%string,(Some 6%N)); ("AccountId"%string,(Some 0%N)); ("MaxApprovals"%string,None)] (TComposite [(Field (Some "when"%string) 200%N (Some "Timepoint<BlockNumber>"%string) []); (Field (Some "deposit"%string) 6%N (Some "Balance"%string) []); (Field (Some "depositor"%string) 0%N (Some "AccountId"%string) []); (Field (Some "approvals"%string) 608%N (Some "BoundedVec<AccountId, MaxApprovals>"%string) [])]) []).
Definition md_t608 : ty := (Ty ["bounded_collections"%string; "bounded_vec"%string; "BoundedVec"%string] [("T"%string,(Some 0%N)); ("S"%string,None)] (TComposite [(Field None 37%N (Some "Vec<T>"%string) [])]) []).
Definition md_t609 : ty := (Ty ["pallet_multisig"%string; "pallet"%string; "Error"%string] [("T"%string,None)] (TVariant [(Variant "MinimumThreshold"%string [] 0%N ["Threshold must be 2 or greater."%string]); (Variant "AlreadyApproved"%string [] 1%N ["Call is already approved by this signatory."%string]); (Variant "NoApprovalsNeeded"%string [] 2%N ["Call doesn't need any (more) approvals."%string]); (Variant "TooFewSignatories"%string [] 3%N ["There are too few signatories in the list."%string]); (Variant "TooManySignatories"%string [] 4%N ["There are too many signatories in the list."%string]); (Variant "SignatoriesOutOfOrder"%string [] 5%N ["The signatories were provided out of order; they should be ordered."%string]); (Variant "SenderInSignatories"%string [] 6%N ["The sender was contained in the other signatories; it shouldn't be."%string]); (Variant "NotFound"%string [] 7%N ["Multisig operation not found when attempting to cancel."%string]); (Variant "NotOwner"%string [] 8%N ["Only the account that originally created the multisig is able to cancel it."%string]); (Variant "NoTimepoint"%string [] 9%N ["No timepoint was given, yet the multisig operation is already underway."%string]); (Variant "WrongTimepoint"%string [] 10%N ["A different timepoint was given to the multisig operation that is underway."%string]); (Variant "UnexpectedTimepoint"%string [] 11%N ["A timepoint was given, yet no multisig operation is underway."%string]); (Variant "MaxWeightTooLow"%string [] 12%N ["The maximum weight information provided was too low."%string]); (Variant "AlreadyStored"%string [] 13%N ["The data to be stored is already stored."%string])]) ["
			Custom [dispatch errors](https://docs.substrate.io/main-docs/build/events-errors/)
			of this pallet.
			"%string]).
Definition md_t610 : ty := (Ty ["pallet_identity"%string; "types"%string; "Registration"%string] [("Balance"%string,(Some 6%N)); ("MaxJudgements"%string,None); ("MaxAdditionalFields"%string,None)] (TComposite [(Field (Some "judgements"%string) 611%N (Some "BoundedVec<(RegistrarIndex, Judgement<Balance>), MaxJudgements>"%string) []); (Field (Some "deposit"%string) 6%N (Some "Balance"%string) []); (Field (Some "info"%string) 202%N (Some "IdentityInfo<MaxAdditionalFields>"%string) [])]) []).
Definition md_t611 : ty := (Ty ["bounded_collections"%string; "bounded_vec"%string; "BoundedVec"%string] [("T"%string,(Some 612%N)); ("S"%string,None)] (TComposite [(Field None 613%N (Some "Vec<T>"%string) [])]) []).
Definition md_t612 : ty := (Ty [] [] (TTuple [4%N; 240%N]) []).
Definition md_t613 : ty := (Ty [] [] (TSequence 612%N) []).
Definition md_t614 : ty := (Ty [] [] (TTuple [6%N; 615%N]) []).
Definition md_t615 : ty := (Ty ["bounded_collections"%string; "bounded_vec"%string; "BoundedVec"%string] [("T"%string,(Some 0%N)); ("S"%string,None)] (TComposite [(Field None 37%N (Some "Vec<T>"%string) [])]) []).
Definition md_t616 : ty := (Ty ["bounded_collections"%string; "bounded_vec"%string; "BoundedVec"%string] [("T"%string,(Some 617%N)); ("S"%string,None)] (TComposite [(Field None 619%N (Some "Vec<T>"%string) [])]) []).
Definition md_t617 : ty := (Ty ["Option"%string] [("T"%string,(Some 618%N))] (TVariant [(Variant "None"%string [] 0%N []); (Variant "Some"%string [(Field None 618%N None [])] 1%N [])]) []).
Definition md_t618 : ty := (Ty ["pallet_identity"%string; "types"%string; "RegistrarInfo"%string] [("Balance"%string,(Some 6%N)); ("AccountId"%string,(Some 0%N))] (TComposite [(Field (Some "account"%string) 0%N (Some "AccountId"%string) []); (Field (Some "fee"%string) 6%N (Some "Balance"%string) []); (Field (Some "fields"%string) 238%N (Some "IdentityFields"%string) [])]) []).
Definition md_t619 : ty := (Ty [] [] (TSequence 617%N) []).
Definition md_t620 : ty := (Ty ["pallet_identity"%string; "pallet"%string; "Error"%string] [("T"%string,None)] (TVariant [(Variant "TooManySubAccounts"%string [] 0%N ["Too many subs-accounts."%string]); (Variant "NotFound"%string [] 1%N ["Account isn't found."%string]); (Variant "NotNamed"%string [] 2%N ["Account isn't named."%string]); (Variant "EmptyIndex"%string [] 3%N ["Empty index."%string]); (Variant "FeeChanged"%string [] 4%N ["Fee is changed."%string]); (Variant "NoIdentity"%string [] 5%N ["No identity found."%string]); (Variant "StickyJudgement"%string [] 6%N ["Sticky judgement."%string]); (Variant "JudgementGiven"%string [] 7%N ["Judgement given."%string]); (Variant "InvalidJudgement"%string [] 8%N ["Invalid judgement."%string]); (Variant "InvalidIndex"%string [] 9%N ["The index is invalid."%string]); (Variant "InvalidTarget"%string [] 10%N ["The target is invalid."%string]); (Variant "TooManyFields"%string [] 11%N ["Too many additional fields."%string]); (Variant "TooManyRegistrars"%string [] 12%N ["Maximum amount of registrars reached. Cannot add any more."%string]); (Variant "AlreadyClaimed"%string [] 13%N ["Account ID is already named."%string]); (Variant "NotSub"%string [] 14%N ["Sender is not a sub-account."%string]); (Variant "NotOwned"%string [] 15%N ["Sub-account isn't owned by sender."%string]); (Variant "JudgementForDifferentIdentity"%string [] 16%N ["The provided judgement was for a different identity."%string]); (Variant "JudgementPaymentFailed"%string [] 17%N ["Error that occurs when there is an issue paying for judgement."%string])]) ["
			Custom [dispatch errors](https://docs.substrate.io/main-docs/build/events-errors/)
			of this pallet.
			"%string]).
Definition md_t621 : ty := (Ty ["bifrost_vesting"%string; "pallet"%string; "Error"%string] [("T"%string,None)] (TVariant [(Variant "NotVesting"%string [] 0%N ["The account given is not vesting."%string]); (Variant "ExistingVestingSchedule"%string [] 1%N ["An existing vesting schedule already exists for this account that cannot be clobbered."%string]); (Variant "AmountLow"%string [] 2%N ["Amount being transferred is too low to create a vesting schedule."%string]); (Variant "SamePerBlock"%string [] 3%N ["change to the same per_block param"%string]); (Variant "VestingStartAtNotSet"%string [] 4%N ["VestingStartAt storage is not set"%string]); (Variant "WrongLockedAmount"%string [] 5%N ["Wrong amount"%string]); (Variant "WrongCliffVesting"%string [] 6%N ["Wrong vesting during cliff period"%string])]) ["Error for the vesting pallet."%string]).
Definition md_t622 : ty := (Ty ["pallet_treasury"%string; "Proposal"%string] [("AccountId"%string,(Some 0%N)); ("Balance"%string,(Some 6%N))] (TComposite [(Field (Some "proposer"%string) 0%N (Some "AccountId"%string) []); (Field (Some "value"%string) 6%N (Some "Balance"%string) []); (Field (Some "beneficiary"%string) 0%N (Some "AccountId"%string) []); (Field (Some "bond"%string) 6%N (Some "Balance"%string) [])]) []).
Definition md_t623 : ty := (Ty ["bounded_collections"%string; "bounded_vec"%string; "BoundedVec"%string] [("T"%string,(Some 4%N)); ("S"%string,None)] (TComposite [(Field None 334%N (Some "Vec<T>"%string) [])]) []).
Definition md_t624 : ty := (Ty ["frame_support"%string; "PalletId"%string] [] (TComposite [(Field None 143%N (Some "[u8; 8]"%string) [])]) []).
Definition md_t625 : ty := (Ty ["pallet_treasury"%string; "pallet"%string; "Error"%string] [("T"%string,None); ("I"%string,None)] (TVariant [(Variant "InsufficientProposersBalance"%string [] 0%N ["Proposer's balance is too low."%string]); (Variant "InvalidIndex"%string [] 1%N ["No proposal or bounty at that index."%string]); (Variant "TooManyApprovals"%string [] 2%N ["Too many approvals in the queue."%string]); (Variant "InsufficientPermission"%string [] 3%N ["The spend origin is valid but the amount it is allowed to spend is lower than the"%string; "amount to be spent."%string]); (Variant "ProposalNotApproved"%string [] 4%N ["Proposal has not been approved."%string])]) ["Error for the treasury pallet."%string]).
Definition md_t626 : ty := (Ty ["pallet_bounties"%string; "Bounty"%string] [("AccountId"%string,(Some 0%N)); ("Balance"%string,(Some 6%N)); ("BlockNumber"%string,(Some 4%N))] (TComposite [(Field (Some "proposer"%string) 0%N (Some "AccountId"%string) []); (Field (Some "value"%string) 6%N (Some "Balance"%string) []); (Field (Some "fee"%string) 6%N (Some "Balance"%string) []); (Field (Some "curator_deposit"%string) 6%N (Some "Balance"%string) []); (Field (Some "bond"%string) 6%N (Some "Balance"%string) []); (Field (Some "status"%string) 627%N (Some "BountyStatus<AccountId, BlockNumber>"%string) [])]) []).
Definition md_t627 : ty := (Ty ["pallet_bounties"%string; "BountyStatus"%string] [("AccountId"%string,(Some 0%N)); ("BlockNumber"%string,(Some 4%N))] (TVariant [(Variant "Proposed"%string [] 0%N []); (Variant "Approved"%string [] 1%N []); (Variant "Funded"%string [] 2%N []); (Variant "CuratorProposed"%string [(Field (Some "curator"%string) 0%N (Some "AccountId"%string) [])] 3%N []); (Variant "Active"%string [(Field (Some "curator"%string) 0%N (Some "AccountId"%string) []); (Field (Some "update_due"%string) 4%N (Some "BlockNumber"%string) [])] 4%N []); (Variant "PendingPayout"%string [(Field (Some "curator"%string) 0%N (Some "AccountId"%string) []); (Field (Some "beneficiary"%string) 0%N (Some "AccountId"%string) []); (Field (Some "unlock_at"%string) 4%N (Some "BlockNumber"%string) [])] 5%N [])]) []).
Definition md_t628 : ty := (Ty ["bounded_collections"%string; "bounded_vec"%string; "BoundedVec"%string] [("T"%string,(Some 2%N)); ("S"%string,None)] (TComposite [(Field None 13%N (Some "Vec<T>"%string) [])]) []).
Definition md_t629 : ty := (Ty ["pallet_bounties"%string; "pallet"%string; "Error"%string] [("T"%string,None); ("I"%string,None)] (TVariant [(Variant "InsufficientProposersBalance"%string [] 0%N ["Proposer's balance is too low."%string]); (Variant "InvalidIndex"%string [] 1%N ["No proposal or bounty at that index."%string]); (Variant "ReasonTooBig"%string [] 2%N ["The reason given is just too big."%string]); (Variant "UnexpectedStatus"%string [] 3%N ["The bounty status is unexpected."%string]); (Variant "RequireCurator"%string [] 4%N ["Require bounty curator."%string]); (Variant "InvalidValue"%string [] 5%N ["Invalid bounty value."%string]); (Variant "InvalidFee"%string [] 6%N ["Invalid bounty fee."%string]); (Variant "PendingPayout"%string [] 7%N ["A bounty payout is pending."%string; "To cancel the bounty, you must unassign and slash the curator."%string]); (Variant "Premature"%string [] 8%N ["The bounties cannot be claimed/closed because it's still in the countdown period."%string]); (Variant "HasActiveChildBounty"%string [] 9%N ["The bounty cannot be closed because it has active child bounties."%string]); (Variant "TooManyQueued"%string [] 10%N ["Too many approvals are already queued."%string])]) ["
			Custom [dispatch errors](https://docs.substrate.io/main-docs/build/events-errors/)
			of this pallet.
			"%string]).
Definition md_t630 : ty := (Ty ["pallet_tips"%string; "OpenTip"%string] [("AccountId"%string,(Some 0%N)); ("Balance"%string,(Some 6%N)); ("BlockNumber"%string,(Some 4%N)); ("Hash"%string,(Some 12%N))] (TComposite [(Field (Some "reason"%string) 12%N (Some "Hash"%string) []); (Field (Some "who"%string) 0%N (Some "AccountId"%string) []); (Field (Some "finder"%string) 0%N (Some "AccountId"%string) []); (Field (Some "deposit"%string) 6%N (Some "Balance"%string) []); (Field (Some "closes"%string) 91%N (Some "Option<BlockNumber>"%string) []); (Field (Some "tips"%string) 50%N (Some "Vec<(AccountId, Balance)>"%string) []); (Field (Some "finders_fee"%string) 45%N (Some "bool"%string) [])]) []).
Definition md_t631 : ty := (Ty ["pallet_tips"%string; "pallet"%string; "Error"%string] [("T"%string,None); ("I"%string,None)] (TVariant [(Variant "ReasonTooBig"%string [] 0%N ["The reason given is just too big."%string]); (Variant "AlreadyKnown"%string [] 1%N ["The tip was already found/started."%string]); (Variant "UnknownTip"%string [] 2%N ["The tip hash is unknown."%string]); (Variant "NotFinder"%string [] 3%N ["The account attempting to retract the tip is not the finder of the tip."%string]); (Variant "StillOpen"%string [] 4%N ["The tip cannot be claimed/closed because there are not enough tippers yet."%string]); (Variant "Premature"%string [] 5%N ["The tip cannot be claimed/closed because it's still in the countdown period."%string])]) ["
			Custom [dispatch errors](https://docs.substrate.io/main-docs/build/events-errors/)
			of this pallet.
			"%string]).
Definition md_t632 : ty := (Ty ["pallet_preimage"%string; "RequestStatus"%string] [("AccountId"%string,(Some 0%N)); ("Balance"%string,(Some 6%N))] (TVariant [(Variant "Unrequested"%string [(Field (Some "deposit"%string) 51%N (Some "(AccountId, Balance)"%string) []); (Field (Some "len"%string) 4%N (Some "u32"%string) [])] 0%N []); (Variant "Requested"%string [(Field (Some "deposit"%string) 633%N (Some "Option<(AccountId, Balance)>"%string) []); (Field (Some "count"%string) 4%N (Some "u32"%string) []); (Field (Some "len"%string) 91%N (Some "Option<u32>"%string) [])] 1%N [])]) []).
Definition md_t633 : ty := (Ty ["Option"%string] [("T"%string,(Some 51%N))] (TVariant [(Variant "None"%string [] 0%N []); (Variant "Some"%string [(Field None 51%N None [])] 1%N [])]) []).
Definition md_t634 : ty := (Ty [] [] (TTuple [12%N; 4%N]) []).
Definition md_t635 : ty := (Ty ["bounded_collections"%string; "bounded_vec"%string; "BoundedVec"%string] [("T"%string,(Some 2%N)); ("S"%string,None)] (TComposite [(Field None 13%N (Some "Vec<T>"%string) [])]) []).
Definition md_t636 : ty := (Ty ["pallet_preimage"%string; "pallet"%string; "Error"%string] [("T"%string,None)] (TVariant [(Variant "TooBig"%string [] 0%N ["Preimage is too large to store on-chain."%string]); (Variant "AlreadyNoted"%string [] 1%N ["Preimage has already been noted on-chain."%string]); (Variant "NotAuthorized"%string [] 2%N ["The user is not authorized to perform this action."%string]); (Variant "NotNoted"%string [] 3%N ["The preimage cannot be removed since it has not yet been noted."%string]); (Variant "Requested"%string [] 4%N ["A preimage may not be removed when there are outstanding requests."%string]); (Variant "NotRequested"%string [] 5%N ["The preimage request cannot be removed since no outstanding requests exist."%string])]) ["
			Custom [dispatch errors](https://docs.substrate.io/main-docs/build/events-errors/)
			of this pallet.
			"%string]).
Definition md_t637 : ty := (Ty ["orml_xtokens"%string; "module"%string; "Error"%string] [("T"%string,None)] (TVariant [(Variant "AssetHasNoReserve"%string [] 0%N ["Asset has no reserve location."%string]); (Variant "NotCrossChainTransfer"%string [] 1%N ["Not cross-chain transfer."%string]); (Variant "InvalidDest"%string [] 2%N ["Invalid transfer destination."%string]); (Variant "NotCrossChainTransferableCurrency"%string [] 3%N ["Currency is not cross-chain transferable."%string]); (Variant "UnweighableMessage"%string [] 4%N ["The message's weight could not be determined."%string]); (Variant "XcmExecutionFailed"%string [] 5%N ["XCM execution failed."%string]); (Variant "CannotReanchor"%string [] 6%N ["Could not re-anchor the assets to declare the fees for the"%string; "destination chain."%string]); (Variant "InvalidAncestry"%string [] 7%N ["Could not get ancestry of asset reserve location."%string]); (Variant "InvalidAsset"%string [] 8%N ["The MultiAsset is invalid."%string]); (Variant "DestinationNotInvertible"%string [] 9%N ["The destination `MultiLocation` provided cannot be inverted."%string]); (Variant "BadVersion"%string [] 10%N ["The version of the `Versioned` value used is not able to be"%string; "interpreted."%string]); (Variant "DistinctReserveForAssetAndFee"%string [] 11%N ["We tried sending distinct asset and fee but they have different"%string; "reserve chains."%string]); (Variant "ZeroFee"%string [] 12%N ["The fee is zero."%string]); (Variant "ZeroAmount"%string [] 13%N ["The transfering asset amount is zero."%string]); (Variant "TooManyAssetsBeingSent"%string [] 14%N ["The number of assets to be sent is over the maximum."%string]); (Variant "AssetIndexNonExistent"%string [] 15%N ["The specified index does not exist in a MultiAssets struct."%string]); (Variant "FeeNotEnough"%string [] 16%N ["Fee is not enough."%string]); (Variant "NotSupportedMultiLocation"%string [] 17%N ["Not supported MultiLocation"%string]); (Variant "MinXcmFeeNotDefined"%string [] 18%N ["MinXcmFee not registered for certain reserve location"%string])]) ["
			Custom [dispatch errors](https://docs.substrate.io/main-docs/build/events-errors/)
			of this pallet.
			"%string]).
Definition md_t638 : ty := (Ty [] [] (TTuple [0%N; 248%N]) []).
Definition md_t639 : ty := (Ty ["bounded_collections"%string; "bounded_vec"%string; "BoundedVec"%string] [("T"%string,(Some 640%N)); ("S"%string,None)] (TComposite [(Field None 641%N (Some "Vec<T>"%string) [])]) []).
Definition md_t640 : ty := (Ty ["orml_tokens"%string; "BalanceLock"%string] [("Balance"%string,(Some 6%N))] (TComposite [(Field (Some "id"%string) 143%N (Some "LockIdentifier"%string) []); (Field (Some "amount"%string) 6%N (Some "Balance"%string) [])]) []).
Definition md_t641 : ty := (Ty [] [] (TSequence 640%N) []).
Definition md_t642 : ty := (Ty ["orml_tokens"%string; "AccountData"%string] [("Balance"%string,(Some 6%N))] (TComposite [(Field (Some "free"%string) 6%N (Some "Balance"%string) []); (Field (Some "reserved"%string) 6%N (Some "Balance"%string) []); (Field (Some "frozen"%string) 6%N (Some "Balance"%string) [])]) []).
Definition md_t643 : ty := (Ty ["bounded_collections"%string; "bounded_vec"%string; "BoundedVec"%string] [("T"%string,(Some 644%N)); ("S"%string,None)] (TComposite [(Field None 645%N (Some "Vec<T>"%string) [])]) []).
Definition md_t644 : ty := (Ty ["orml_tokens"%string; "ReserveData"%string] [("ReserveIdentifier"%string,(Some 143%N)); ("Balance"%string,(Some 6%N))] (TComposite [(Field (Some "id"%string) 143%N (Some "ReserveIdentifier"%string) []); (Field (Some "amount"%string) 6%N (Some "Balance"%string) [])]) []).
Definition md_t645 : ty := (Ty [] [] (TSequence 644%N) []).
Definition md_t646 : ty := (Ty ["orml_tokens"%string; "module"%string; "Error"%string] [("T"%string,None)] (TVariant [(Variant "BalanceTooLow"%string [] 0%N ["The balance is too low"%string]); (Variant "AmountIntoBalanceFailed"%string [] 1%N ["Cannot convert Amount into Balance type"%string]); (Variant "LiquidityRestrictions"%string [] 2%N ["Failed because liquidity restrictions due to locking"%string]); (Variant "MaxLocksExceeded"%string [] 3%N ["Failed because the maximum locks was exceeded"%string]); (Variant "KeepAlive"%string [] 4%N ["Transfer/payment would kill account"%string]); (Variant "ExistentialDeposit"%string [] 5%N ["Value too low to create account due to existential deposit"%string]); (Variant "DeadAccount"%string [] 6%N ["Beneficiary account must pre-exist"%string]); (Variant "TooManyReserves"%string [] 7%N [])]) ["
			Custom [dispatch errors](https://docs.substrate.io/main-docs/build/events-errors/)
			of this pallet.
			"%string]).
Definition md_t647 : ty := (Ty ["bifrost_currencies"%string; "module"%string; "Error"%string] [("T"%string,None)] (TVariant [(Variant "AmountIntoBalanceFailed"%string [] 0%N ["Unable to convert the Amount type into Balance."%string]); (Variant "BalanceTooLow"%string [] 1%N ["Balance is too low."%string]); (Variant "DepositFailed"%string [] 2%N ["Deposit result is not expected"%string])]) ["
			Custom [dispatch errors](https://docs.substrate.io/main-docs/build/events-errors/)
			of this pallet.
			"%string]).
Definition md_t648 : ty := (Ty [] [] (TTuple [112%N; 112%N]) []).
Definition md_t649 : ty := (Ty [] [] (TTuple [112%N; 13%N]) []).
Definition md_t650 : ty := (Ty ["orml_unknown_tokens"%string; "module"%string; "Error"%string] [("T"%string,None)] (TVariant [(Variant "BalanceTooLow"%string [] 0%N ["The balance is too low."%string]); (Variant "BalanceOverflow"%string [] 1%N ["The operation will cause balance to overflow."%string]); (Variant "UnhandledAsset"%string [] 2%N ["Unhandled asset."%string])]) ["
			Custom [dispatch errors](https://docs.substrate.io/main-docs/build/events-errors/)
			of this pallet.
			"%string]).
Definition md_t651 : ty := (Ty ["orml_xcm"%string; "module"%string; "Error"%string] [("T"%string,None)] (TVariant [(Variant "Unreachable"%string [] 0%N ["The message and destination combination was not recognized as being"%string; "reachable."%string]); (Variant "SendFailure"%string [] 1%N ["The message and destination was recognized as being reachable but"%string; "the operation could not be completed."%string]); (Variant "BadVersion"%string [] 2%N ["The version of the `Versioned` value used is not able to be"%string; "interpreted."%string])]) ["
			Custom [dispatch errors](https://docs.substrate.io/main-docs/build/events-errors/)
			of this pallet.
			"%string]).
Definition md_t652 : ty := (Ty [] [] (TTuple [259%N; 0%N]) []).
Definition md_t653 : ty := (Ty [] [] (TTuple [259%N; 259%N]) []).
Definition md_t654 : ty := (Ty ["primitive_types"%string; "U256"%string] [] (TComposite [(Field None 655%N (Some "[u64; 4]"%string) [])]) []).
Definition md_t655 : ty := (Ty [] [] (TArray 4%N 11%N) []).
Definition md_t656 : ty := (Ty [] [] (TTuple [94%N; 2%N]) []).
Definition md_t657 : ty := (Ty ["Option"%string] [("T"%string,(Some 259%N))] (TVariant [(Variant "None"%string [] 0%N []); (Variant "Some"%string [(Field None 259%N None [])] 1%N [])]) []).
Definition md_t658 : ty := (Ty ["zenlink_protocol"%string; "primitives"%string; "PairStatus"%string] [("Balance"%string,(Some 6%N)); ("BlockNumber"%string,(Some 4%N)); ("Account"%string,(Some 0%N))] (TVariant [(Variant "Trading"%string [(Field None 659%N (Some "PairMetadata<Balance, Account>"%string) [])] 0%N []); (Variant "Bootstrap"%string [(Field None 660%N (Some "BootstrapParameter<Balance, BlockNumber, Account>"%string) [])] 1%N []); (Variant "Disable"%string [] 2%N [])]) []).
Definition md_t659 : ty := (Ty ["zenlink_protocol"%string; "primitives"%string; "PairMetadata"%string] [("Balance"%string,(Some 6%N)); ("Account"%string,(Some 0%N))] (TComposite [(Field (Some "pair_account"%string) 0%N (Some "Account"%string) []); (Field (Some "total_supply"%string) 6%N (Some "Balance"%string) [])]) []).
Definition md_t660 : ty := (Ty ["zenlink_protocol"%string; "primitives"%string; "BootstrapParameter"%string] [("Balance"%string,(Some 6%N)); ("BlockNumber"%string,(Some 4%N)); ("Account"%string,(Some 0%N))] (TComposite [(Field (Some "target_supply"%string) 363%N (Some "(Balance, Balance)"%string) []); (Field (Some "capacity_supply"%string) 363%N (Some "(Balance, Balance)"%string) []); (Field (Some "accumulated_supply"%string) 363%N (Some "(Balance, Balance)"%string) []); (Field (Some "end_block_number"%string) 4%N (Some "BlockNumber"%string) []); (Field (Some "pair_account"%string) 0%N (Some "Account"%string) [])]) []).
Definition md_t661 : ty := (Ty [] [] (TTuple [653%N; 0%N]) []).
Definition md_t662 : ty := (Ty ["BTreeMap"%string] [("K"%string,(Some 259%N)); ("V"%string,(Some 6%N))] (TComposite [(Field None 261%N None [])]) []).
Definition md_t663 : ty := (Ty ["zenlink_protocol"%string; "pallet"%string; "Error"%string] [("T"%string,None)] (TVariant [(Variant "RequireProtocolAdmin"%string [] 0%N ["Require the admin who can reset the admin and receiver of the protocol fee."%string]); (Variant "RequireProtocolAdminCandidate"%string [] 1%N ["Require the admin candidate who can become new admin after confirm."%string]); (Variant "InvalidFeePoint"%string [] 2%N ["Invalid fee_point"%string]); (Variant "UnsupportedAssetType"%string [] 3%N ["Unsupported AssetId by this ZenlinkProtocol Version."%string]); (Variant "InsufficientAssetBalance"%string [] 4%N ["Account balance must be greater than or equal to the transfer amount."%string]); (Variant "NativeBalanceTooLow"%string [] 5%N ["Account native currency balance must be greater than ExistentialDeposit."%string]); (Variant "DeniedCreatePair"%string [] 6%N ["Trading pair can't be created."%string]); (Variant "PairAlreadyExists"%string [] 7%N ["Trading pair already exists."%string]); (Variant "PairNotExists"%string [] 8%N ["Trading pair does not exist."%string]); (Variant "AssetNotExists"%string [] 9%N ["Asset does not exist."%string]); (Variant "InsufficientLiquidity"%string [] 10%N ["Liquidity is not enough."%string]); (Variant "InsufficientPairReserve"%string [] 11%N ["Trading pair does have enough foreign."%string]); (Variant "InsufficientTargetAmount"%string [] 12%N ["Get target amount is less than exception."%string]); (Variant "ExcessiveSoldAmount"%string [] 13%N ["Sold amount is more than exception."%string]); (Variant "InvalidPath"%string [] 14%N ["Can't find pair though trading path."%string]); (Variant "IncorrectAssetAmountRange"%string [] 15%N ["Incorrect foreign amount range."%string]); (Variant "Overflow"%string [] 16%N ["Overflow."%string]); (Variant "Deadline"%string [] 17%N ["Transaction block number is larger than the end block number."%string]); (Variant "AccountIdBadLocation"%string [] 18%N ["Location given was invalid or unsupported."%string]); (Variant "ExecutionFailed"%string [] 19%N ["XCM execution failed."%string]); (Variant "DeniedTransferToSelf"%string [] 20%N ["Transfer to self by XCM message."%string]); (Variant "TargetChainNotRegistered"%string [] 21%N ["Not in ZenlinkRegistedParaChains."%string]); (Variant "InvariantCheckFailed"%string [] 22%N ["Can't pass the K value check"%string]); (Variant "PairCreateForbidden"%string [] 23%N ["Created pair can't create now"%string]); (Variant "NotInBootstrap"%string [] 24%N ["Pair is not in bootstrap"%string]); (Variant "InvalidContributionAmount"%string [] 25%N ["Amount of contribution is invalid."%string]); (Variant "UnqualifiedBootstrap"%string [] 26%N ["Amount of contribution is invalid."%string]); (Variant "ZeroContribute"%string [] 27%N ["Zero contribute in bootstrap"%string]); (Variant "DenyRefund"%string [] 28%N ["Bootstrap deny refund"%string]); (Variant "DisableBootstrap"%string [] 29%N ["Bootstrap is disable"%string]); (Variant "NotQualifiedAccount"%string [] 30%N ["Not eligible to contribute"%string]); (Variant "NoRewardTokens"%string [] 31%N ["Reward of bootstrap is not set."%string]); (Variant "ChargeRewardParamsError"%string [] 32%N ["Charge bootstrap extrinsic args has error,"%string]); (Variant "ExistRewardsInBootstrap"%string [] 33%N ["Exist some reward in bootstrap,"%string])]) ["
			Custom [dispatch errors](https://docs.substrate.io/main-docs/build/events-errors/)
			of this pallet.
			"%string]).
Definition md_t664 : ty := (Ty ["merkle_distributor"%string; "MerkleMetadata"%string] [("Balance"%string,(Some 6%N)); ("CurrencyId"%string,(Some 248%N)); ("AccountId"%string,(Some 0%N)); ("BoundString"%string,(Some 665%N))] (TComposite [(Field (Some "merkle_root"%string) 12%N (Some "H256"%string) []); (Field (Some "description"%string) 665%N (Some "BoundString"%string) []); (Field (Some "distribute_currency"%string) 248%N (Some "CurrencyId"%string) []); (Field (Some "distribute_amount"%string) 6%N (Some "Balance"%string) []); (Field (Some "distribute_holder"%string) 0%N (Some "AccountId"%string) []); (Field (Some "charged"%string) 45%N (Some "bool"%string) [])]) []).
Definition md_t665 : ty := (Ty ["bounded_collections"%string; "bounded_vec"%string; "BoundedVec"%string] [("T"%string,(Some 2%N)); ("S"%string,None)] (TComposite [(Field None 13%N (Some "Vec<T>"%string) [])]) []).
Definition md_t666 : ty := (Ty ["BTreeSet"%string] [("T"%string,(Some 0%N))] (TComposite [(Field None 37%N None [])]) []).
Definition md_t667 : ty := (Ty ["merkle_distributor"%string; "pallet"%string; "Error"%string] [("T"%string,None)] (TVariant [(Variant "BadDescription"%string [] 0%N ["Invalid metadata given."%string]); (Variant "InvalidMerkleDistributorId"%string [] 1%N ["The id is not exist."%string]); (Variant "MerkleVerifyFailed"%string [] 2%N ["The proof is invalid"%string]); (Variant "Claimed"%string [] 3%N ["The reward is already distributed."%string]); (Variant "Charged"%string [] 4%N ["The reward is already charged."%string]); (Variant "WithdrawAmountExceed"%string [] 5%N ["Withdraw amount exceed charge amount."%string]); (Variant "BadChargeAccount"%string [] 6%N [""%string]); (Variant "AlreadyInWhiteList"%string [] 7%N ["Account has already in the set who can create merkle distributor"%string]); (Variant "NotInWhiteList"%string [] 8%N ["Account is no in the set who can create merkle distributor"%string])]) ["
			Custom [dispatch errors](https://docs.substrate.io/main-docs/build/events-errors/)
			of this pallet.
			"%string]).
Definition md_t668 : ty := (Ty ["bifrost_flexible_fee"%string; "pallet"%string; "Error"%string] [("T"%string,None)] (TVariant [(Variant "NotEnoughBalance"%string [] 0%N []); (Variant "Overflow"%string [] 1%N []); (Variant "ConversionError"%string [] 2%N []); (Variant "WrongListLength"%string [] 3%N []); (Variant "WeightAndFeeNotExist"%string [] 4%N []); (Variant "DexFailedToGetAmountInByPath"%string [] 5%N [])]) ["
			Custom [dispatch errors](https://docs.substrate.io/main-docs/build/events-errors/)
			of this pallet.
			"%string]).
Definition md_t669 : ty := (Ty [] [] (TTuple [4%N; 0%N; 6%N]) []).
Definition md_t670 : ty := (Ty ["Option"%string] [("T"%string,(Some 671%N))] (TVariant [(Variant "None"%string [] 0%N []); (Variant "Some"%string [(Field None 671%N None [])] 1%N [])]) []).
Definition md_t671 : ty := (Ty ["bifrost_salp"%string; "FundInfo"%string] [("Balance"%string,(Some 6%N)); ("LeasePeriod"%string,(Some 4%N))] (TComposite [(Field (Some "raised"%string) 6%N (Some "Balance"%string) []); (Field (Some "cap"%string) 6%N (Some "Balance"%string) []); (Field (Some "first_slot"%string) 4%N (Some "LeasePeriod"%string) []); (Field (Some "last_slot"%string) 4%N (Some "LeasePeriod"%string) []); (Field (Some "trie_index"%string) 4%N (Some "TrieIndex"%string) []); (Field (Some "status"%string) 271%N (Some "FundStatus"%string) [])]) []).
Definition md_t672 : ty := (Ty [] [] (TTuple [4%N; 4%N; 4%N]) []).
Definition md_t673 : ty := (Ty ["bifrost_salp"%string; "pallet"%string; "Error"%string] [("T"%string,None)] (TVariant [(Variant "FirstSlotTooFarInFuture"%string [] 0%N ["The first slot needs to at least be less than 3 `max_value`."%string]); (Variant "LastSlotBeforeFirstSlot"%string [] 1%N ["Last slot must be greater than first slot."%string]); (Variant "LastSlotTooFarInFuture"%string [] 2%N ["The last slot cannot be more then 3 slots after the first slot."%string]); (Variant "Overflow"%string [] 3%N ["There was an overflow."%string]); (Variant "ContributionTooSmall"%string [] 4%N ["The contribution was below the minimum, `MinContribution`."%string]); (Variant "ZeroContribution"%string [] 5%N ["The account doesn't have any contribution to the fund."%string]); (Variant "InvalidParaId"%string [] 6%N ["Invalid fund index."%string]); (Variant "InvalidFundStatus"%string [] 7%N ["Invalid fund status."%string]); (Variant "InvalidContributionStatus"%string [] 8%N ["Invalid contribution status."%string]); (Variant "CapExceeded"%string [] 9%N ["Contributions exceed maximum amount."%string]); (Variant "FundAlreadyCreated"%string [] 10%N ["The fund has been registered."%string]); (Variant "XcmFailed"%string [] 11%N ["Crosschain xcm failed"%string]); (Variant "NotEnoughReservedAssetsToRefund"%string [] 12%N ["Don't have enough vsToken/vsBond to refund"%string]); (Variant "NotEnoughBalanceInRefundPool"%string [] 13%N ["Don't have enough token to refund by users"%string]); (Variant "NotEnoughBalanceToUnlock"%string [] 14%N ["Don't have enough vsToken/vsBond to unlock"%string]); (Variant "VSBondExpired"%string [] 15%N ["The vsBond is expired now"%string]); (Variant "UnRedeemableNow"%string [] 16%N ["The vsBond cannot be redeemed by now"%string]); (Variant "NotEnoughFreeAssetsToRedeem"%string [] 17%N ["Dont have enough vsToken/vsBond to redeem"%string]); (Variant "NotEnoughBalanceInRedeemPool"%string [] 18%N ["Don't have enough token to redeem by users"%string]); (Variant "NotEnoughBalanceInFund"%string [] 19%N []); (Variant "InvalidFundSameSlot"%string [] 20%N []); (Variant "InvalidFundNotExist"%string [] 21%N []); (Variant "InvalidRefund"%string [] 22%N []); (Variant "NotEnoughBalanceToContribute"%string [] 23%N []); (Variant "NotSupportTokenType"%string [] 24%N []); (Variant "ResponderNotRelayChain"%string [] 25%N ["Responder is not a relay chain"%string]); (Variant "NotFindContributionValue"%string [] 26%N ["No contribution record found"%string]); (Variant "ArgumentsError"%string [] 27%N [])]) ["
			Custom [dispatch errors](https://docs.substrate.io/main-docs/build/events-errors/)
			of this pallet.
			"%string]).
Definition md_t674 : ty := (Ty ["bifrost_call_switchgear"%string; "pallet"%string; "Error"%string] [("T"%string,None)] (TVariant [(Variant "CannotSwitchOff"%string [] 0%N ["can not switch off"%string]); (Variant "InvalidCharacter"%string [] 1%N ["Invalid character"%string])]) ["
			Custom [dispatch errors](https://docs.substrate.io/main-docs/build/events-errors/)
			of this pallet.
			"%string]).
Definition md_t675 : ty := (Ty ["bifrost_asset_registry"%string; "pallet"%string; "Error"%string] [("T"%string,None)] (TVariant [(Variant "BadLocation"%string [] 0%N ["The given location could not be used (e.g. because it cannot be expressed in the"%string; "desired version of XCM)."%string]); (Variant "MultiLocationExisted"%string [] 1%N ["MultiLocation existed"%string]); (Variant "AssetIdNotExists"%string [] 2%N ["AssetId not exists"%string]); (Variant "AssetIdExisted"%string [] 3%N ["AssetId exists"%string]); (Variant "CurrencyIdNotExists"%string [] 4%N ["CurrencyId not exists"%string]); (Variant "CurrencyIdExisted"%string [] 5%N ["CurrencyId exists"%string])]) ["
			Custom [dispatch errors](https://docs.substrate.io/main-docs/build/events-errors/)
			of this pallet.
			"%string]).
Definition md_t676 : ty := (Ty [] [] (TTuple [278%N; 278%N]) []).
Definition md_t677 : ty := (Ty [] [] (TTuple [248%N; 4%N]) []).
Definition md_t678 : ty := (Ty [] [] (TTuple [0%N; 6%N; 277%N; 679%N]) []).
Definition md_t679 : ty := (Ty ["node_primitives"%string; "RedeemType"%string] [("AccountId"%string,(Some 0%N))] (TVariant [(Variant "Native"%string [] 0%N []); (Variant "Astar"%string [(Field None 0%N (Some "AccountId"%string) [])] 1%N []); (Variant "Moonbeam"%string [(Field None 354%N (Some "H160"%string) [])] 2%N []); (Variant "Hydradx"%string [(Field None 0%N (Some "AccountId"%string) [])] 3%N [])]) []).
Definition md_t680 : ty := (Ty [] [] (TTuple [6%N; 681%N]) []).
Definition md_t681 : ty := (Ty ["bounded_collections"%string; "bounded_vec"%string; "BoundedVec"%string] [("T"%string,(Some 4%N)); ("S"%string,None)] (TComposite [(Field None 334%N (Some "Vec<T>"%string) [])]) []).
Definition md_t682 : ty := (Ty [] [] (TTuple [277%N; 248%N]) []).
Definition md_t683 : ty := (Ty [] [] (TTuple [6%N; 684%N; 248%N]) []).
Definition md_t684 : ty := (Ty ["bounded_collections"%string; "bounded_vec"%string; "BoundedVec"%string] [("T"%string,(Some 4%N)); ("S"%string,None)] (TComposite [(Field None 334%N (Some "Vec<T>"%string) [])]) []).
Definition md_t685 : ty := (Ty ["bifrost_vtoken_minting"%string; "pallet"%string; "Error"%string] [("T"%string,None)] (TVariant [(Variant "BelowMinimumMint"%string [] 0%N []); (Variant "BelowMinimumRedeem"%string [] 1%N []); (Variant "InvalidRebondToken"%string [] 2%N ["Invalid token to rebond."%string]); (Variant "NotSupportTokenType"%string [] 3%N ["Token type not support."%string]); (Variant "NotEnoughBalanceToUnlock"%string [] 4%N []); (Variant "TokenToRebondNotZero"%string [] 5%N []); (Variant "OngoingTimeUnitNotSet"%string [] 6%N []); (Variant "TokenUnlockLedgerNotFound"%string [] 7%N []); (Variant "UserUnlockLedgerNotFound"%string [] 8%N []); (Variant "TimeUnitUnlockLedgerNotFound"%string [] 9%N []); (Variant "UnlockDurationNotFound"%string [] 10%N []); (Variant "Unexpected"%string [] 11%N []); (Variant "CalculationOverflow"%string [] 12%N []); (Variant "ExceedMaximumUnlockId"%string [] 13%N []); (Variant "TooManyRedeems"%string [] 14%N []); (Variant "CanNotRedeem"%string [] 15%N []); (Variant "CanNotRebond"%string [] 16%N [])]) ["
			Custom [dispatch errors](https://docs.substrate.io/main-docs/build/events-errors/)
			of this pallet.
			"%string]).
Definition md_t686 : ty := (Ty [] [] (TTuple [248%N; 687%N]) []).
Definition md_t687 : ty := (Ty ["bifrost_slp"%string; "primitives"%string; "XcmOperation"%string] [] (TVariant [(Variant "XtokensTransfer"%string [] 0%N []); (Variant "Bond"%string [] 1%N []); (Variant "WithdrawUnbonded"%string [] 2%N []); (Variant "BondExtra"%string [] 3%N []); (Variant "Unbond"%string [] 4%N []); (Variant "Rebond"%string [] 5%N []); (Variant "Delegate"%string [] 6%N []); (Variant "Payout"%string [] 7%N []); (Variant "Liquidize"%string [] 8%N []); (Variant "TransferBack"%string [] 9%N []); (Variant "TransferTo"%string [] 10%N []); (Variant "Chill"%string [] 11%N []); (Variant "Undelegate"%string [] 12%N []); (Variant "CancelLeave"%string [] 13%N []); (Variant "XtokensTransferBack"%string [] 14%N []); (Variant "ExecuteLeave"%string [] 15%N []); (Variant "ConvertAsset"%string [] 16%N []); (Variant "Vote"%string [] 17%N []); (Variant "RemoveVote"%string [] 18%N [])]) []).
Definition md_t688 : ty := (Ty [] [] (TTuple [9%N; 6%N]) []).
Definition md_t689 : ty := (Ty [] [] (TTuple [248%N; 56%N]) []).
Definition md_t690 : ty := (Ty [] [] (TTuple [248%N; 112%N]) []).
Definition md_t691 : ty := (Ty ["bounded_collections"%string; "bounded_vec"%string; "BoundedVec"%string] [("T"%string,(Some 112%N)); ("S"%string,None)] (TComposite [(Field None 282%N (Some "Vec<T>"%string) [])]) []).
Definition md_t692 : ty := (Ty ["bounded_collections"%string; "bounded_vec"%string; "BoundedVec"%string] [("T"%string,(Some 414%N)); ("S"%string,None)] (TComposite [(Field None 413%N (Some "Vec<T>"%string) [])]) []).
Definition md_t693 : ty := (Ty [] [] (TTuple [411%N; 4%N]) []).
Definition md_t694 : ty := (Ty [] [] (TTuple [406%N; 4%N]) []).
Definition md_t695 : ty := (Ty [] [] (TTuple [277%N; 4%N]) []).
Definition md_t696 : ty := (Ty [] [] (TSequence 697%N) []).
Definition md_t697 : ty := (Ty [] [] (TTuple [112%N; 12%N]) []).
Definition md_t698 : ty := (Ty ["bifrost_slp"%string; "pallet"%string; "Error"%string] [("T"%string,None)] (TVariant [(Variant "OperateOriginNotSet"%string [] 0%N []); (Variant "NotAuthorized"%string [] 1%N []); (Variant "NotSupportedCurrencyId"%string [] 2%N []); (Variant "FailToAddDelegator"%string [] 3%N []); (Variant "OverFlow"%string [] 4%N []); (Variant "UnderFlow"%string [] 5%N []); (Variant "NotExist"%string [] 6%N []); (Variant "LowerThanMinimum"%string [] 7%N []); (Variant "GreaterThanMaximum"%string [] 8%N []); (Variant "AlreadyBonded"%string [] 9%N []); (Variant "AccountNotExist"%string [] 10%N []); (Variant "DelegatorNotExist"%string [] 11%N []); (Variant "XcmFailure"%string [] 12%N []); (Variant "DelegatorNotBonded"%string [] 13%N []); (Variant "ExceedActiveMaximum"%string [] 14%N []); (Variant "ProblematicLedger"%string [] 15%N []); (Variant "NotEnoughToUnbond"%string [] 16%N []); (Variant "ExceedUnlockingRecords"%string [] 17%N []); (Variant "RebondExceedUnlockingAmount"%string [] 18%N []); (Variant "DecodingError"%string [] 19%N []); (Variant "EncodingError"%string [] 20%N []); (Variant "VectorEmpty"%string [] 21%N []); (Variant "ValidatorSetNotExist"%string [] 22%N []); (Variant "ValidatorNotExist"%string [] 23%N []); (Variant "InvalidTimeUnit"%string [] 24%N []); (Variant "AmountZero"%string [] 25%N []); (Variant "AmountNotZero"%string [] 26%N []); (Variant "AlreadyExist"%string [] 27%N []); (Variant "ValidatorStillInUse"%string [] 28%N []); (Variant "TimeUnitNotExist"%string [] 29%N []); (Variant "FeeSourceNotExist"%string [] 30%N []); (Variant "WeightAndFeeNotExists"%string [] 31%N []); (Variant "MinimumsAndMaximumsNotExist"%string [] 32%N []); (Variant "QueryNotExist"%string [] 33%N []); (Variant "DelaysNotExist"%string [] 34%N []); (Variant "Unexpected"%string [] 35%N []); (Variant "QueryResponseRemoveError"%string [] 36%N []); (Variant "InvalidHostingFee"%string [] 37%N []); (Variant "InvalidAccount"%string [] 38%N []); (Variant "IncreaseTokenPoolError"%string [] 39%N []); (Variant "TuneExchangeRateLimitNotSet"%string [] 40%N []); (Variant "CurrencyLatestTuneRecordNotExist"%string [] 41%N []); (Variant "InvalidTransferSource"%string [] 42%N []); (Variant "ValidatorNotProvided"%string [] 43%N []); (Variant "Unsupported"%string [] 44%N []); (Variant "ValidatorNotBonded"%string [] 45%N []); (Variant "AlreadyRequested"%string [] 46%N []); (Variant "RequestNotExist"%string [] 47%N []); (Variant "AlreadyLeaving"%string [] 48%N []); (Variant "DelegatorNotLeaving"%string [] 49%N []); (Variant "RequestNotDue"%string [] 50%N []); (Variant "LeavingNotDue"%string [] 51%N []); (Variant "DelegatorSetNotExist"%string [] 52%N []); (Variant "DelegatorLeaving"%string [] 53%N []); (Variant "DelegatorAlreadyLeaving"%string [] 54%N []); (Variant "ValidatorError"%string [] 55%N []); (Variant "AmountNone"%string [] 56%N []); (Variant "InvalidDelays"%string [] 57%N []); (Variant "OngoingTimeUnitUpdateIntervalNotExist"%string [] 58%N []); (Variant "LastTimeUpdatedOngoingTimeUnitNotExist"%string [] 59%N []); (Variant "TooFrequent"%string [] 60%N []); (Variant "DestAccountNotValid"%string [] 61%N []); (Variant "WhiteListNotExist"%string [] 62%N []); (Variant "DelegatorAlreadyTuned"%string [] 63%N []); (Variant "FeeTooHigh"%string [] 64%N []); (Variant "NotEnoughBalance"%string [] 65%N []); (Variant "VectorTooLong"%string [] 66%N []); (Variant "MultiCurrencyError"%string [] 67%N []); (Variant "NotDelegateValidator"%string [] 68%N []); (Variant "DividedByZero"%string [] 69%N []); (Variant "SharePriceNotValid"%string [] 70%N []); (Variant "InvalidAmount"%string [] 71%N []); (Variant "ValidatorMultilocationNotvalid"%string [] 72%N []); (Variant "AmountNotProvided"%string [] 73%N []); (Variant "FailToConvert"%string [] 74%N []); (Variant "ExceedMaxLengthLimit"%string [] 75%N []); (Variant "TransferToError"%string [] 76%N ["Transfer to failed"%string])]) ["
			Custom [dispatch errors](https://docs.substrate.io/main-docs/build/events-errors/)
			of this pallet.
			"%string]).
Definition md_t699 : ty := (Ty ["xcm_interface"%string; "pallet"%string; "XcmInterfaceOperation"%string] [] (TVariant [(Variant "UmpContributeTransact"%string [] 0%N []); (Variant "StatemineTransfer"%string [] 1%N [])]) []).
Definition md_t700 : ty := (Ty [] [] (TTuple [248%N; 318%N]) []).
Definition md_t701 : ty := (Ty ["xcm_interface"%string; "pallet"%string; "Error"%string] [("T"%string,None)] (TVariant [(Variant "FeeConvertFailed"%string [] 0%N []); (Variant "XcmExecutionFailed"%string [] 1%N []); (Variant "XcmSendFailed"%string [] 2%N []); (Variant "OperationWeightAndFeeNotExist"%string [] 3%N [])]) ["
			Custom [dispatch errors](https://docs.substrate.io/main-docs/build/events-errors/)
			of this pallet.
			"%string]).
Definition md_t702 : ty := (Ty ["bifrost_vstoken_conversion"%string; "pallet"%string; "Error"%string] [("T"%string,None)] (TVariant [(Variant "NotEnoughBalance"%string [] 0%N []); (Variant "NotSupportTokenType"%string [] 1%N []); (Variant "CalculationOverflow"%string [] 2%N [])]) ["
			Custom [dispatch errors](https://docs.substrate.io/main-docs/build/events-errors/)
			of this pallet.
			"%string]).
Definition md_t703 : ty := (Ty ["bifrost_farming"%string; "rewards"%string; "PoolInfo"%string] [("BalanceOf"%string,(Some 6%N)); ("CurrencyIdOf"%string,(Some 248%N)); ("AccountIdOf"%string,(Some 0%N)); ("BlockNumberFor"%string,(Some 4%N))] (TComposite [(Field (Some "tokens_proportion"%string) 704%N (Some "BTreeMap<CurrencyIdOf, Perbill>"%string) []); (Field (Some "basic_token"%string) 326%N (Some "(CurrencyIdOf, Perbill)"%string) []); (Field (Some "total_shares"%string) 6%N (Some "BalanceOf"%string) []); (Field (Some "basic_rewards"%string) 705%N (Some "BTreeMap<CurrencyIdOf, BalanceOf>"%string) []); (Field (Some "rewards"%string) 706%N (Some "BTreeMap<CurrencyIdOf, (BalanceOf, BalanceOf)>"%string) []); (Field (Some "state"%string) 707%N (Some "PoolState"%string) []); (Field (Some "keeper"%string) 0%N (Some "AccountIdOf"%string) []); (Field (Some "reward_issuer"%string) 0%N (Some "AccountIdOf"%string) []); (Field (Some "gauge"%string) 91%N (Some "Option<PoolId>"%string) []); (Field (Some "block_startup"%string) 91%N (Some "Option<BlockNumberFor>"%string) []); (Field (Some "min_deposit_to_start"%string) 6%N (Some "BalanceOf"%string) []); (Field (Some "after_block_to_start"%string) 4%N (Some "BlockNumberFor"%string) []); (Field (Some "withdraw_limit_time"%string) 4%N (Some "BlockNumberFor"%string) []); (Field (Some "claim_limit_time"%string) 4%N (Some "BlockNumberFor"%string) []); (Field (Some "withdraw_limit_count"%string) 2%N (Some "u8"%string) [])]) []).
Definition md_t704 : ty := (Ty ["BTreeMap"%string] [("K"%string,(Some 248%N)); ("V"%string,(Some 327%N))] (TComposite [(Field None 325%N None [])]) []).
Definition md_t705 : ty := (Ty ["BTreeMap"%string] [("K"%string,(Some 248%N)); ("V"%string,(Some 6%N))] (TComposite [(Field None 251%N None [])]) []).
Definition md_t706 : ty := (Ty ["BTreeMap"%string] [("K"%string,(Some 248%N)); ("V"%string,(Some 363%N))] (TComposite [(Field None 361%N None [])]) []).
Definition md_t707 : ty := (Ty ["bifrost_farming"%string; "rewards"%string; "PoolState"%string] [] (TVariant [(Variant "UnCharged"%string [] 0%N []); (Variant "Charged"%string [] 1%N []); (Variant "Ongoing"%string [] 2%N []); (Variant "Dead"%string [] 3%N []); (Variant "Retired"%string [] 4%N [])]) []).
Definition md_t708 : ty := (Ty ["bifrost_farming"%string; "gauge"%string; "GaugePoolInfo"%string] [("BalanceOf"%string,(Some 6%N)); ("CurrencyIdOf"%string,(Some 248%N)); ("AccountIdOf"%string,(Some 0%N)); ("BlockNumberFor"%string,(Some 4%N))] (TComposite [(Field (Some "pid"%string) 4%N (Some "PoolId"%string) []); (Field (Some "token"%string) 248%N (Some "CurrencyIdOf"%string) []); (Field (Some "keeper"%string) 0%N (Some "AccountIdOf"%string) []); (Field (Some "reward_issuer"%string) 0%N (Some "AccountIdOf"%string) []); (Field (Some "rewards"%string) 709%N (Some "BTreeMap<CurrencyIdOf, (BalanceOf, BalanceOf, BalanceOf)>"%string) []); (Field (Some "gauge_basic_rewards"%string) 705%N (Some "BTreeMap<CurrencyIdOf, BalanceOf>"%string) []); (Field (Some "max_block"%string) 4%N (Some "BlockNumberFor"%string) []); (Field (Some "gauge_amount"%string) 6%N (Some "BalanceOf"%string) []); (Field (Some "total_time_factor"%string) 6%N (Some "u128"%string) []); (Field (Some "gauge_state"%string) 713%N (Some "GaugeState"%string) []); (Field (Some "gauge_last_block"%string) 4%N (Some "BlockNumberFor"%string) [])]) []).
Definition md_t709 : ty := (Ty ["BTreeMap"%string] [("K"%string,(Some 248%N)); ("V"%string,(Some 710%N))] (TComposite [(Field None 711%N None [])]) []).
Definition md_t710 : ty := (Ty [] [] (TTuple [6%N; 6%N; 6%N]) []).
Definition md_t711 : ty := (Ty [] [] (TSequence 712%N) []).
Definition md_t712 : ty := (Ty [] [] (TTuple [248%N; 710%N]) []).
Definition md_t713 : ty := (Ty ["bifrost_farming"%string; "gauge"%string; "GaugeState"%string] [] (TVariant [(Variant "Unbond"%string [] 0%N []); (Variant "Bonded"%string [] 1%N [])]) []).
Definition md_t714 : ty := (Ty [] [] (TTuple [4%N; 0%N]) []).
Definition md_t715 : ty := (Ty ["bifrost_farming"%string; "gauge"%string; "GaugeInfo"%string] [("BalanceOf"%string,(Some 6%N)); ("BlockNumberFor"%string,(Some 4%N)); ("AccountIdOf"%string,(Some 0%N))] (TComposite [(Field (Some "who"%string) 0%N (Some "AccountIdOf"%string) []); (Field (Some "gauge_amount"%string) 6%N (Some "BalanceOf"%string) []); (Field (Some "total_time_factor"%string) 6%N (Some "u128"%string) []); (Field (Some "latest_time_factor"%string) 6%N (Some "u128"%string) []); (Field (Some "claimed_time_factor"%string) 6%N (Some "u128"%string) []); (Field (Some "gauge_start_block"%string) 4%N (Some "BlockNumberFor"%string) []); (Field (Some "gauge_stop_block"%string) 4%N (Some "BlockNumberFor"%string) []); (Field (Some "gauge_last_block"%string) 4%N (Some "BlockNumberFor"%string) []); (Field (Some "last_claim_block"%string) 4%N (Some "BlockNumberFor"%string) [])]) []).
Definition md_t716 : ty := (Ty ["bifrost_farming"%string; "rewards"%string; "ShareInfo"%string] [("BalanceOf"%string,(Some 6%N)); ("CurrencyIdOf"%string,(Some 248%N)); ("BlockNumberFor"%string,(Some 4%N)); ("AccountIdOf"%string,(Some 0%N))] (TComposite [(Field (Some "who"%string) 0%N (Some "AccountIdOf"%string) []); (Field (Some "share"%string) 6%N (Some "BalanceOf"%string) []); (Field (Some "withdrawn_rewards"%string) 705%N (Some "BTreeMap<CurrencyIdOf, BalanceOf>"%string) []); (Field (Some "claim_last_block"%string) 4%N (Some "BlockNumberFor"%string) []); (Field (Some "withdraw_list"%string) 544%N (Some "Vec<(BlockNumberFor, BalanceOf)>"%string) [])]) []).
Definition md_t717 : ty := (Ty ["bifrost_farming"%string; "boost"%string; "BoostPoolInfo"%string] [("Balance"%string,(Some 6%N)); ("BlockNumber"%string,(Some 4%N))] (TComposite [(Field (Some "total_votes"%string) 6%N (Some "Balance"%string) []); (Field (Some "start_round"%string) 4%N (Some "BlockNumber"%string) []); (Field (Some "end_round"%string) 4%N (Some "BlockNumber"%string) []); (Field (Some "round_length"%string) 4%N (Some "BlockNumber"%string) [])]) []).
Definition md_t718 : ty := (Ty ["bifrost_farming"%string; "boost"%string; "UserBoostInfo"%string] [("T"%string,None)] (TComposite [(Field (Some "vote_amount"%string) 6%N (Some "BalanceOf<T>"%string) []); (Field (Some "vote_list"%string) 719%N (Some "BoundedVec<(PoolId, Percent), T::WhitelistMaximumLimit>"%string) []); (Field (Some "last_vote"%string) 4%N (Some "BlockNumberFor<T>"%string) [])]) []).
Definition md_t719 : ty := (Ty ["bounded_collections"%string; "bounded_vec"%string; "BoundedVec"%string] [("T"%string,(Some 336%N)); ("S"%string,None)] (TComposite [(Field None 335%N (Some "Vec<T>"%string) [])]) []).
Definition md_t720 : ty := (Ty [] [] (TTuple [4%N; 248%N]) []).
Definition md_t721 : ty := (Ty ["bifrost_farming"%string; "pallet"%string; "Error"%string] [("T"%string,None)] (TVariant [(Variant "NotNullable"%string [] 0%N []); (Variant "PoolDoesNotExist"%string [] 1%N []); (Variant "GaugePoolNotExist"%string [] 2%N []); (Variant "GaugeInfoNotExist"%string [] 3%N []); (Variant "InvalidPoolState"%string [] 4%N []); (Variant "LastGaugeNotClaim"%string [] 5%N []); (Variant "CanNotClaim"%string [] 6%N ["claim_limit_time exceeded"%string]); (Variant "GaugeMaxBlockOverflow"%string [] 7%N ["gauge pool max_block exceeded"%string]); (Variant "WithdrawLimitCountExceeded"%string [] 8%N ["withdraw_limit_time exceeded"%string]); (Variant "ShareInfoNotExists"%string [] 9%N []); (Variant "CanNotDeposit"%string [] 10%N []); (Variant "WhitelistEmpty"%string [] 11%N []); (Variant "RoundNotOver"%string [] 12%N []); (Variant "RoundLengthNotSet"%string [] 13%N []); (Variant "WhitelistLimitExceeded"%string [] 14%N []); (Variant "NobodyVoting"%string [] 15%N []); (Variant "NotInWhitelist"%string [] 16%N []); (Variant "PercentOverflow"%string [] 17%N []); (Variant "PoolNotCleared"%string [] 18%N [])]) ["
			Custom [dispatch errors](https://docs.substrate.io/main-docs/build/events-errors/)
			of this pallet.
			"%string]).
Definition md_t722 : ty := (Ty ["bifrost_system_staking"%string; "types"%string; "RoundInfo"%string] [("BlockNumber"%string,(Some 4%N))] (TComposite [(Field (Some "current"%string) 4%N (Some "RoundIndex"%string) []); (Field (Some "first"%string) 4%N (Some "BlockNumber"%string) []); (Field (Some "length"%string) 4%N (Some "u32"%string) [])]) []).
Definition md_t723 : ty := (Ty ["bifrost_system_staking"%string; "types"%string; "TokenInfo"%string] [("Balance"%string,(Some 6%N))] (TComposite [(Field (Some "farming_staking_amount"%string) 6%N (Some "Balance"%string) []); (Field (Some "system_stakable_amount"%string) 6%N (Some "Balance"%string) []); (Field (Some "system_shadow_amount"%string) 6%N (Some "Balance"%string) []); (Field (Some "pending_redeem_amount"%string) 6%N (Some "Balance"%string) []); (Field (Some "current_config"%string) 724%N (Some "TokenConfig<Balance>"%string) []); (Field (Some "new_config"%string) 724%N (Some "TokenConfig<Balance>"%string) [])]) []).
Definition md_t724 : ty := (Ty ["bifrost_system_staking"%string; "types"%string; "TokenConfig"%string] [("Balance"%string,(Some 6%N))] (TComposite [(Field (Some "exec_delay"%string) 4%N (Some "u32"%string) []); (Field (Some "system_stakable_farming_rate"%string) 278%N (Some "Permill"%string) []); (Field (Some "lptoken_rates"%string) 342%N (Some "Vec<Perbill>"%string) []); (Field (Some "add_or_sub"%string) 45%N (Some "bool"%string) []); (Field (Some "system_stakable_base"%string) 6%N (Some "Balance"%string) []); (Field (Some "farming_poolids"%string) 334%N (Some "Vec<PoolId>"%string) [])]) []).
Definition md_t725 : ty := (Ty ["bounded_collections"%string; "bounded_vec"%string; "BoundedVec"%string] [("T"%string,(Some 248%N)); ("S"%string,None)] (TComposite [(Field None 268%N (Some "Vec<T>"%string) [])]) []).
Definition md_t726 : ty := (Ty ["bifrost_system_staking"%string; "pallet"%string; "Error"%string] [("T"%string,None)] (TVariant [(Variant "InvalidTokenConfig"%string [] 0%N ["Invalid token config params"%string]); (Variant "ExceedMaxTokenLen"%string [] 1%N ["exceed max token len"%string]); (Variant "ExceedMaxFarmingPoolidLen"%string [] 2%N ["exceed max poolid len"%string]); (Variant "TokenInfoNotFound"%string [] 3%N ["Token info not found"%string]); (Variant "PayoutFailed"%string [] 4%N ["payout error"%string])]) ["
			Custom [dispatch errors](https://docs.substrate.io/main-docs/build/events-errors/)
			of this pallet.
			"%string]).
Definition md_t727 : ty := (Ty ["bifrost_system_maker"%string; "pallet"%string; "Error"%string] [("T"%string,None)] (TVariant [(Variant "NotEnoughBalance"%string [] 0%N []); (Variant "NotSupportTokenType"%string [] 1%N []); (Variant "CalculationOverflow"%string [] 2%N [])]) ["
			Custom [dispatch errors](https://docs.substrate.io/main-docs/build/events-errors/)
			of this pallet.
			"%string]).
Definition md_t728 : ty := (Ty ["bifrost_fee_share"%string; "pallet"%string; "Error"%string] [("T"%string,None)] (TVariant [(Variant "NotEnoughBalance"%string [] 0%N []); (Variant "NotSupportProportion"%string [] 1%N []); (Variant "CalculationOverflow"%string [] 2%N []); (Variant "ExistentialDeposit"%string [] 3%N []); (Variant "DistributionNotExist"%string [] 4%N [])]) ["
			Custom [dispatch errors](https://docs.substrate.io/main-docs/build/events-errors/)
			of this pallet.
			"%string]).
Definition md_t729 : ty := (Ty ["bounded_collections"%string; "bounded_vec"%string; "BoundedVec"%string] [("T"%string,(Some 0%N)); ("S"%string,None)] (TComposite [(Field None 37%N (Some "Vec<T>"%string) [])]) []).
Definition md_t730 : ty := (Ty [] [] (TTuple [248%N; 0%N]) []).
Definition md_t731 : ty := (Ty [] [] (TTuple [248%N; 126%N]) []).
Definition md_t732 : ty := (Ty ["bifrost_cross_in_out"%string; "pallet"%string; "Error"%string] [("T"%string,None)] (TVariant [(Variant "NotEnoughBalance"%string [] 0%N []); (Variant "NotExist"%string [] 1%N []); (Variant "NotAllowed"%string [] 2%N []); (Variant "CurrencyNotSupportCrossInAndOut"%string [] 3%N []); (Variant "NoMultilocationMapping"%string [] 4%N []); (Variant "NoAccountIdMapping"%string [] 5%N []); (Variant "AlreadyExist"%string [] 6%N []); (Variant "NoCrossingMinimumSet"%string [] 7%N []); (Variant "AmountLowerThanMinimum"%string [] 8%N []); (Variant "ExceedMaxLengthLimit"%string [] 9%N []); (Variant "FailedToConvert"%string [] 10%N [])]) ["
			Custom [dispatch errors](https://docs.substrate.io/main-docs/build/events-errors/)
			of this pallet.
			"%string]).
Definition md_t733 : ty := (Ty ["bifrost_ve_minting"%string; "LockedBalance"%string] [("Balance"%string,(Some 6%N)); ("BlockNumber"%string,(Some 4%N))] (TComposite [(Field (Some "amount"%string) 6%N (Some "Balance"%string) []); (Field (Some "end"%string) 4%N (Some "BlockNumber"%string) [])]) []).
Definition md_t734 : ty := (Ty ["bifrost_ve_minting"%string; "Point"%string] [("Balance"%string,(Some 6%N)); ("BlockNumber"%string,(Some 4%N))] (TComposite [(Field (Some "bias"%string) 255%N (Some "i128"%string) []); (Field (Some "slope"%string) 255%N (Some "i128"%string) []); (Field (Some "block"%string) 4%N (Some "BlockNumber"%string) []); (Field (Some "amount"%string) 6%N (Some "Balance"%string) [])]) []).
Definition md_t735 : ty := (Ty [] [] (TTuple [0%N; 654%N]) []).
Definition md_t736 : ty := (Ty ["bifrost_ve_minting"%string; "incentive"%string; "IncentiveConfig"%string] [("CurrencyId"%string,(Some 248%N)); ("Balance"%string,(Some 6%N)); ("BlockNumber"%string,(Some 4%N))] (TComposite [(Field (Some "reward_rate"%string) 705%N (Some "BTreeMap<CurrencyId, Balance>"%string) []); (Field (Some "reward_per_token_stored"%string) 705%N (Some "BTreeMap<CurrencyId, Balance>"%string) []); (Field (Some "rewards_duration"%string) 4%N (Some "BlockNumber"%string) []); (Field (Some "period_finish"%string) 4%N (Some "BlockNumber"%string) []); (Field (Some "last_update_time"%string) 4%N (Some "BlockNumber"%string) [])]) []).
Definition md_t737 : ty := (Ty ["bifrost_ve_minting"%string; "pallet"%string; "Error"%string] [("T"%string,None)] (TVariant [(Variant "NotEnoughBalance"%string [] 0%N []); (Variant "Expired"%string [] 1%N []); (Variant "BelowMinimumMint"%string [] 2%N []); (Variant "LockNotExist"%string [] 3%N []); (Variant "LockExist"%string [] 4%N []); (Variant "NoRewards"%string [] 5%N [])]) ["
			Custom [dispatch errors](https://docs.substrate.io/main-docs/build/events-errors/)
			of this pallet.
			"%string]).
Definition md_t738 : ty := (Ty ["bounded_collections"%string; "bounded_vec"%string; "BoundedVec"%string] [("T"%string,(Some 0%N)); ("S"%string,None)] (TComposite [(Field None 37%N (Some "Vec<T>"%string) [])]) []).
Definition md_t739 : ty := (Ty ["bifrost_slpx"%string; "pallet"%string; "Error"%string] [("T"%string,None)] (TVariant [(Variant "TokenNotFoundInVtokenMinting"%string [] 0%N ["Token not found in vtoken minting"%string]); (Variant "TokenNotFoundInZenlink"%string [] 1%N ["Token not found in zenlink"%string]); (Variant "AccountIdAlreadyInWhitelist"%string [] 2%N ["Contract Account already exists in the whitelist"%string]); (Variant "AccountIdNotInWhitelist"%string [] 3%N ["Contract Account is not in the whitelist"%string]); (Variant "ExceededWhitelistMaxNumber"%string [] 4%N ["The maximum number of whitelist addresses is 10"%string]); (Variant "NotSetExecutionFee"%string [] 5%N ["Execution fee not set"%string]); (Variant "FreeBalanceTooLow"%string [] 6%N ["Insufficient balance to execute the fee"%string]); (Variant "ArgumentsError"%string [] 7%N ["ArgumentsError"%string])]) ["
			Custom [dispatch errors](https://docs.substrate.io/main-docs/build/events-errors/)
			of this pallet.
			"%string]).
Definition md_t740 : ty := (Ty ["pallet_ranked_collective"%string; "MemberRecord"%string] [] (TComposite [(Field (Some "rank"%string) 56%N (Some "Rank"%string) [])]) []).
Definition md_t741 : ty := (Ty [] [] (TTuple [56%N; 0%N]) []).
Definition md_t742 : ty := (Ty [] [] (TTuple [56%N; 4%N]) []).
Definition md_t743 : ty := (Ty ["bounded_collections"%string; "bounded_vec"%string; "BoundedVec"%string] [("T"%string,(Some 2%N)); ("S"%string,None)] (TComposite [(Field None 13%N (Some "Vec<T>"%string) [])]) []).
Definition md_t744 : ty := (Ty ["pallet_ranked_collective"%string; "pallet"%string; "Error"%string] [("T"%string,None); ("I"%string,None)] (TVariant [(Variant "AlreadyMember"%string [] 0%N ["Account is already a member."%string]); (Variant "NotMember"%string [] 1%N ["Account is not a member."%string]); (Variant "NotPolling"%string [] 2%N ["The given poll index is unknown or has closed."%string]); (Variant "Ongoing"%string [] 3%N ["The given poll is still ongoing."%string]); (Variant "NoneRemaining"%string [] 4%N ["There are no further records to be removed."%string]); (Variant "Corruption"%string [] 5%N ["Unexpected error in state."%string]); (Variant "RankTooLow"%string [] 6%N ["The member's rank is too low to vote."%string]); (Variant "InvalidWitness"%string [] 7%N ["The information provided is incorrect."%string]); (Variant "NoPermission"%string [] 8%N ["The origin is not sufficiently privileged to do the operation."%string])]) ["
			Custom [dispatch errors](https://docs.substrate.io/main-docs/build/events-errors/)
			of this pallet.
			"%string]).
Definition md_t745 : ty := (Ty ["pallet_referenda"%string; "types"%string; "ReferendumInfo"%string] [("TrackId"%string,(Some 56%N)); ("RuntimeOrigin"%string,(Some 106%N)); ("Moment"%string,(Some 4%N)); ("Call"%string,(Some 57%N)); ("Balance"%string,(Some 6%N)); ("Tally"%string,(Some 429%N)); ("AccountId"%string,(Some 0%N)); ("ScheduleAddress"%string,(Some 194%N))] (TVariant [(Variant "Ongoing"%string [(Field None 746%N (Some "ReferendumStatus<TrackId, RuntimeOrigin, Moment, Call, Balance, Tally,
AccountId, ScheduleAddress,>"%string) [])] 0%N []); (Variant "Approved"%string [(Field None 4%N (Some "Moment"%string) []); (Field None 537%N (Some "Option<Deposit<AccountId, Balance>>"%string) []); (Field None 537%N (Some "Option<Deposit<AccountId, Balance>>"%string) [])] 1%N []); (Variant "Rejected"%string [(Field None 4%N (Some "Moment"%string) []); (Field None 537%N (Some "Option<Deposit<AccountId, Balance>>"%string) []); (Field None 537%N (Some "Option<Deposit<AccountId, Balance>>"%string) [])] 2%N []); (Variant "Cancelled"%string [(Field None 4%N (Some "Moment"%string) []); (Field None 537%N (Some "Option<Deposit<AccountId, Balance>>"%string) []); (Field None 537%N (Some "Option<Deposit<AccountId, Balance>>"%string) [])] 3%N []); (Variant "TimedOut"%string [(Field None 4%N (Some "Moment"%string) []); (Field None 537%N (Some "Option<Deposit<AccountId, Balance>>"%string) []); (Field None 537%N (Some "Option<Deposit<AccountId, Balance>>"%string) [])] 4%N []); (Variant "Killed"%string [(Field None 4%N (Some "Moment"%string) [])] 5%N [])]) []).
Definition md_t746 : ty := (Ty ["pallet_referenda"%string; "types"%string; "ReferendumStatus"%string] [("TrackId"%string,(Some 56%N)); ("RuntimeOrigin"%string,(Some 106%N)); ("Moment"%string,(Some 4%N)); ("Call"%string,(Some 57%N)); ("Balance"%string,(Some 6%N)); ("Tally"%string,(Some 429%N)); ("AccountId"%string,(Some 0%N)); ("ScheduleAddress"%string,(Some 194%N))] (TComposite [(Field (Some "track"%string) 56%N (Some "TrackId"%string) []); (Field (Some "origin"%string) 106%N (Some "RuntimeOrigin"%string) []); (Field (Some "proposal"%string) 57%N (Some "Call"%string) []); (Field (Some "enactment"%string) 121%N (Some "DispatchTime<Moment>"%string) []); (Field (Some "submitted"%string) 4%N (Some "Moment"%string) []); (Field (Some "submission_deposit"%string) 536%N (Some "Deposit<AccountId, Balance>"%string) []); (Field (Some "decision_deposit"%string) 537%N (Some "Option<Deposit<AccountId, Balance>>"%string) []); (Field (Some "deciding"%string) 538%N (Some "Option<DecidingStatus<Moment>>"%string) []); (Field (Some "tally"%string) 429%N (Some "Tally"%string) []); (Field (Some "in_queue"%string) 45%N (Some "bool"%string) []); (Field (Some "alarm"%string) 540%N (Some "Option<(Moment, ScheduleAddress)>"%string) [])]) []).
Definition md_t747 : ty := (Ty ["bounded_collections"%string; "bounded_vec"%string; "BoundedVec"%string] [("T"%string,(Some 194%N)); ("S"%string,None)] (TComposite [(Field None 434%N (Some "Vec<T>"%string) [])]) []).
Definition md_t748 : ty := (Ty ["pallet_referenda"%string; "pallet"%string; "Error"%string] [("T"%string,None); ("I"%string,None)] (TVariant [(Variant "NotOngoing"%string [] 0%N ["Referendum is not ongoing."%string]); (Variant "HasDeposit"%string [] 1%N ["Referendum's decision deposit is already paid."%string]); (Variant "BadTrack"%string [] 2%N ["The track identifier given was invalid."%string]); (Variant "Full"%string [] 3%N ["There are already a full complement of referenda in progress for this track."%string]); (Variant "QueueEmpty"%string [] 4%N ["The queue of the track is empty."%string]); (Variant "BadReferendum"%string [] 5%N ["The referendum index provided is invalid in this context."%string]); (Variant "NothingToDo"%string [] 6%N ["There was nothing to do in the advancement."%string]); (Variant "NoTrack"%string [] 7%N ["No track exists for the proposal origin."%string]); (Variant "Unfinished"%string [] 8%N ["Any deposit cannot be refunded until after the decision is over."%string]); (Variant "NoPermission"%string [] 9%N ["The deposit refunder is not the depositor."%string]); (Variant "NoDeposit"%string [] 10%N ["The deposit cannot be refunded since none was made."%string]); (Variant "BadStatus"%string [] 11%N ["The referendum status is invalid for this operation."%string]); (Variant "PreimageNotExist"%string [] 12%N ["The preimage does not exist."%string])]) ["
			Custom [dispatch errors](https://docs.substrate.io/main-docs/build/events-errors/)
			of this pallet.
			"%string]).
Definition md_t749 : ty := (Ty ["nutsfinance_stable_asset"%string; "StableAssetPoolInfo"%string] [("AssetId"%string,(Some 248%N)); ("AtLeast64BitUnsigned"%string,(Some 6%N)); ("Balance"%string,(Some 6%N)); ("AccountId"%string,(Some 0%N)); ("BlockNumber"%string,(Some 4%N))] (TComposite [(Field (Some "pool_id"%string) 4%N (Some "StableAssetPoolId"%string) []); (Field (Some "pool_asset"%string) 248%N (Some "AssetId"%string) []); (Field (Some "assets"%string) 268%N (Some "Vec<AssetId>"%string) []); (Field (Some "precisions"%string) 360%N (Some "Vec<AtLeast64BitUnsigned>"%string) []); (Field (Some "mint_fee"%string) 6%N (Some "AtLeast64BitUnsigned"%string) []); (Field (Some "swap_fee"%string) 6%N (Some "AtLeast64BitUnsigned"%string) []); (Field (Some "redeem_fee"%string) 6%N (Some "AtLeast64BitUnsigned"%string) []); (Field (Some "total_supply"%string) 6%N (Some "Balance"%string) []); (Field (Some "a"%string) 6%N (Some "AtLeast64BitUnsigned"%string) []); (Field (Some "a_block"%string) 4%N (Some "BlockNumber"%string) []); (Field (Some "future_a"%string) 6%N (Some "AtLeast64BitUnsigned"%string) []); (Field (Some "future_a_block"%string) 4%N (Some "BlockNumber"%string) []); (Field (Some "balances"%string) 360%N (Some "Vec<Balance>"%string) []); (Field (Some "fee_recipient"%string) 0%N (Some "AccountId"%string) []); (Field (Some "account_id"%string) 0%N (Some "AccountId"%string) []); (Field (Some "yield_recipient"%string) 0%N (Some "AccountId"%string) []); (Field (Some "precision"%string) 6%N (Some "AtLeast64BitUnsigned"%string) [])]) []).
Definition md_t750 : ty := (Ty ["nutsfinance_stable_asset"%string; "pallet"%string; "Error"%string] [("T"%string,None)] (TVariant [(Variant "InconsistentStorage"%string [] 0%N []); (Variant "InvalidPoolAsset"%string [] 1%N []); (Variant "ArgumentsMismatch"%string [] 2%N []); (Variant "ArgumentsError"%string [] 3%N []); (Variant "PoolNotFound"%string [] 4%N []); (Variant "Math"%string [] 5%N []); (Variant "InvalidPoolValue"%string [] 6%N []); (Variant "MintUnderMin"%string [] 7%N []); (Variant "SwapUnderMin"%string [] 8%N []); (Variant "RedeemUnderMin"%string [] 9%N []); (Variant "RedeemOverMax"%string [] 10%N []); (Variant "TokenRateNotCleared"%string [] 11%N [])]) ["
			Custom [dispatch errors](https://docs.substrate.io/main-docs/build/events-errors/)
			of this pallet.
			"%string]).
Definition md_t751 : ty := (Ty ["bifrost_stable_pool"%string; "pallet"%string; "Error"%string] [("T"%string,None)] (TVariant [(Variant "SwapUnderMin"%string [] 0%N []); (Variant "MintUnderMin"%string [] 1%N []); (Variant "CantMint"%string [] 2%N []); (Variant "RedeemOverMax"%string [] 3%N []); (Variant "TokenRateNotSet"%string [] 4%N [])]) ["
			Custom [dispatch errors](https://docs.substrate.io/main-docs/build/events-errors/)
			of this pallet.
			"%string]).
Definition md_t752 : ty := (Ty ["bifrost_vtoken_voting"%string; "vote"%string; "Voting"%string] [("Balance"%string,(Some 6%N)); ("AccountId"%string,(Some 0%N)); ("BlockNumber"%string,(Some 4%N)); ("PollIndex"%string,(Some 4%N)); ("MaxVotes"%string,None)] (TVariant [(Variant "Casting"%string [(Field None 753%N (Some "Casting<Balance, BlockNumber, PollIndex, MaxVotes>"%string) [])] 0%N []); (Variant "Delegating"%string [(Field None 758%N (Some "Delegating<Balance, AccountId, BlockNumber>"%string) [])] 1%N [])]) []).
Definition md_t753 : ty := (Ty ["bifrost_vtoken_voting"%string; "vote"%string; "Casting"%string] [("Balance"%string,(Some 6%N)); ("BlockNumber"%string,(Some 4%N)); ("PollIndex"%string,(Some 4%N)); ("MaxVotes"%string,None)] (TComposite [(Field (Some "votes"%string) 754%N (Some "BoundedVec<(PollIndex, AccountVote<Balance>, DerivativeIndex, Balance),
MaxVotes>"%string) []); (Field (Some "delegations"%string) 527%N (Some "Delegations<Balance>"%string) []); (Field (Some "prior"%string) 757%N (Some "PriorLock<BlockNumber, Balance>"%string) [])]) []).
Definition md_t754 : ty := (Ty ["bounded_collections"%string; "bounded_vec"%string; "BoundedVec"%string] [("T"%string,(Some 755%N)); ("S"%string,None)] (TComposite [(Field None 756%N (Some "Vec<T>"%string) [])]) []).
Definition md_t755 : ty := (Ty [] [] (TTuple [4%N; 365%N; 56%N; 6%N]) []).
Definition md_t756 : ty := (Ty [] [] (TSequence 755%N) []).
Definition md_t757 : ty := (Ty ["bifrost_vtoken_voting"%string; "vote"%string; "PriorLock"%string] [("BlockNumber"%string,(Some 4%N)); ("Balance"%string,(Some 6%N))] (TComposite [(Field None 4%N (Some "BlockNumber"%string) []); (Field None 6%N (Some "Balance"%string) [])]) []).
Definition md_t758 : ty := (Ty ["bifrost_vtoken_voting"%string; "vote"%string; "Delegating"%string] [("Balance"%string,(Some 6%N)); ("AccountId"%string,(Some 0%N)); ("BlockNumber"%string,(Some 4%N))] (TComposite [(Field (Some "balance"%string) 6%N (Some "Balance"%string) []); (Field (Some "target"%string) 0%N (Some "AccountId"%string) []); (Field (Some "conviction"%string) 103%N (Some "Conviction"%string) []); (Field (Some "delegations"%string) 527%N (Some "Delegations<Balance>"%string) []); (Field (Some "prior"%string) 757%N (Some "PriorLock<BlockNumber, Balance>"%string) [])]) []).
Definition md_t759 : ty := (Ty ["bounded_collections"%string; "bounded_vec"%string; "BoundedVec"%string] [("T"%string,(Some 543%N)); ("S"%string,None)] (TComposite [(Field None 544%N (Some "Vec<T>"%string) [])]) []).
Definition md_t760 : ty := (Ty [] [] (TTuple [248%N; 4%N; 56%N; 0%N; 761%N]) []).
Definition md_t761 : ty := (Ty ["Option"%string] [("T"%string,(Some 762%N))] (TVariant [(Variant "None"%string [] 0%N []); (Variant "Some"%string [(Field None 762%N None [])] 1%N [])]) []).
Definition md_t762 : ty := (Ty [] [] (TTuple [365%N; 6%N]) []).
Definition md_t763 : ty := (Ty [] [] (TTuple [248%N; 4%N; 56%N]) []).
Definition md_t764 : ty := (Ty ["bounded_collections"%string; "bounded_vec"%string; "BoundedVec"%string] [("T"%string,(Some 677%N)); ("S"%string,None)] (TComposite [(Field None 765%N (Some "Vec<T>"%string) [])]) []).
Definition md_t765 : ty := (Ty [] [] (TSequence 677%N) []).
Definition md_t766 : ty := (Ty [] [] (TTuple [0%N; 248%N; 4%N]) []).
Definition md_t767 : ty := (Ty ["bifrost_vtoken_voting"%string; "pallet"%string; "Error"%string] [("T"%string,None)] (TVariant [(Variant "XcmFailure"%string [] 0%N ["XCM execution Failure"%string]); (Variant "VTokenNotSupport"%string [] 1%N ["The given currency is not supported."%string]); (Variant "DerivativeIndexOccupied"%string [] 2%N ["Derivative index occupied."%string]); (Variant "PendingVote"%string [] 3%N ["Another vote is pending."%string]); (Variant "PendingUpdateReferendumStatus"%string [] 4%N ["Another update referendum status is pending."%string]); (Variant "NoData"%string [] 5%N ["No data available in storage."%string]); (Variant "NotOngoing"%string [] 6%N ["Poll is not ongoing."%string]); (Variant "NotCompleted"%string [] 7%N ["Poll is not completed."%string]); (Variant "NotKilled"%string [] 8%N ["Poll is not killed."%string]); (Variant "NotExpired"%string [] 9%N ["Poll is not expired."%string]); (Variant "NotVoter"%string [] 10%N ["The given account did not vote on the poll."%string]); (Variant "NoPermission"%string [] 11%N ["The actor has no permission to conduct the action."%string]); (Variant "NoPermissionYet"%string [] 12%N ["The actor has no permission to conduct the action right now but will do in the future."%string]); (Variant "AlreadyDelegating"%string [] 13%N ["The account is already delegating."%string]); (Variant "InsufficientFunds"%string [] 14%N ["Too high a balance was provided that the account cannot afford."%string]); (Variant "MaxVotesReached"%string [] 15%N ["Maximum number of votes reached."%string]); (Variant "TooMany"%string [] 16%N ["Maximum number of items reached."%string]); (Variant "ChangeDelegator"%string [] 17%N ["Change delegator is not allowed."%string])]) ["
			Custom [dispatch errors](https://docs.substrate.io/main-docs/build/events-errors/)
			of this pallet.
			"%string]).
Definition md_t768 : ty := (Ty ["sp_runtime"%string; "generic"%string; "unchecked_extrinsic"%string; "UncheckedExtrinsic"%string] [("Address"%string,(Some 65%N)); ("Call"%string,(Some 58%N)); ("Signature"%string,(Some 769%N)); ("Extra"%string,(Some 775%N))] (TComposite [(Field None 13%N None [])]) []).
Definition md_t769 : ty := (Ty ["sp_runtime"%string; "MultiSignature"%string] [] (TVariant [(Variant "Ed25519"%string [(Field None 770%N (Some "ed25519::Signature"%string) [])] 0%N []); (Variant "Sr25519"%string [(Field None 772%N (Some "sr25519::Signature"%string) [])] 1%N []); (Variant "Ecdsa"%string [(Field None 773%N (Some "ecdsa::Signature"%string) [])] 2%N [])]) []).
Definition md_t770 : ty := (Ty ["sp_core"%string; "ed25519"%string; "Signature"%string] [] (TComposite [(Field None 771%N (Some "[u8; 64]"%string) [])]) []).
Definition md_t771 : ty := (Ty [] [] (TArray 64%N 2%N) []).
Definition md_t772 : ty := (Ty ["sp_core"%string; "sr25519"%string; "Signature"%string] [] (TComposite [(Field None 771%N (Some "[u8; 64]"%string) [])]) []).
Definition md_t773 : ty := (Ty ["sp_core"%string; "ecdsa"%string; "Signature"%string] [] (TComposite [(Field None 774%N (Some "[u8; 65]"%string) [])]) []).
Definition md_t774 : ty := (Ty [] [] (TArray 65%N 2%N) []).
Definition md_t775 : ty := (Ty [] [] (TTuple [776%N; 777%N; 778%N; 779%N; 780%N; 782%N; 783%N; 784%N]) []).
Definition md_t776 : ty := (Ty ["frame_system"%string; "extensions"%string; "check_non_zero_sender"%string; "CheckNonZeroSender"%string] [("T"%string,None)] (TComposite []) []).
Definition md_t777 : ty := (Ty ["frame_system"%string; "extensions"%string; "check_spec_version"%string; "CheckSpecVersion"%string] [("T"%string,None)] (TComposite []) []).
Definition md_t778 : ty := (Ty ["frame_system"%string; "extensions"%string; "check_tx_version"%string; "CheckTxVersion"%string] [("T"%string,None)] (TComposite []) []).
Definition md_t779 : ty := (Ty ["frame_system"%string; "extensions"%string; "check_genesis"%string; "CheckGenesis"%string] [("T"%string,None)] (TComposite []) []).
Definition md_t780 : ty := (Ty ["frame_system"%string; "extensions"%string; "check_mortality"%string; "CheckMortality"%string] [("T"%string,None)] (TComposite [(Field None 781%N (Some "Era"%string) [])]) []).
Definition md_t781 : ty := (Ty ["sp_runtime"%string; "generic"%string; "era"%string; "Era"%string] [] (TVariant [(Variant "Immortal"%string [] 0%N []); (Variant "Mortal1"%string [(Field None 2%N None [])] 1%N []); (Variant "Mortal2"%string [(Field None 2%N None [])] 2%N []); (Variant "Mortal3"%string [(Field None 2%N None [])] 3%N []); (Variant "Mortal4"%string [(Field None 2%N None [])] 4%N []); (Variant "Mortal5"%string [(Field None 2%N None [])] 5%N []); (Variant "Mortal6"%string [(Field None 2%N None [])] 6%N []); (Variant "Mortal7"%string [(Field None 2%N None [])] 7%N []); (Variant "Mortal8"%string [(Field None 2%N None [])] 8%N []); (Variant "Mortal9"%string [(Field None 2%N None [])] 9%N []); (Variant "Mortal10"%string [(Field None 2%N None [])] 10%N []); (Variant "Mortal11"%string [(Field None 2%N None [])] 11%N []); (Variant "Mortal12"%string [(Field None 2%N None [])] 12%N []); (Variant "Mortal13"%string [(Field None 2%N None [])] 13%N []); (Variant "Mortal14"%string [(Field None 2%N None [])] 14%N []); (Variant "Mortal15"%string [(Field None 2%N None [])] 15%N []); (Variant "Mortal16"%string [(Field None 2%N None [])] 16%N []); (Variant "Mortal17"%string [(Field None 2%N None [])] 17%N []); (Variant "Mortal18"%string [(Field None 2%N None [])] 18%N []); (Variant "Mortal19"%string [(Field None 2%N None [])] 19%N []); (Variant "Mortal20"%string [(Field None 2%N None [])] 20%N []); (Variant "Mortal21"%string [(Field None 2%N None [])] 21%N []); (Variant "Mortal22"%string [(Field None 2%N None [])] 22%N []); (Variant "Mortal23"%string [(Field None 2%N None [])] 23%N []); (Variant "Mortal24"%string [(Field None 2%N None [])] 24%N []); (Variant "Mortal25"%string [(Field None 2%N None [])] 25%N []); (Variant "Mortal26"%string [(Field None 2%N None [])] 26%N []); (Variant "Mortal27"%string [(Field None 2%N None [])] 27%N []); (Variant "Mortal28"%string [(Field None 2%N None [])] 28%N []); (Variant "Mortal29"%string [(Field None 2%N None [])] 29%N []); (Variant "Mortal30"%string [(Field None 2%N None [])] 30%N []); (Variant "Mortal31"%string [(Field None 2%N None [])] 31%N []); (Variant "Mortal32"%string [(Field None 2%N None [])] 32%N []); (Variant "Mortal33"%string [(Field None 2%N None [])] 33%N []); (Variant "Mortal34"%string [(Field None 2%N None [])] 34%N []); (Variant "Mortal35"%string [(Field None 2%N None [])] 35%N []); (Variant "Mortal36"%string [(Field None 2%N None [])] 36%N []); (Variant "Mortal37"%string [(Field None 2%N None [])] 37%N []); (Variant "Mortal38"%string [(Field None 2%N None [])] 38%N []); (Variant "Mortal39"%string [(Field None 2%N None [])] 39%N []); (Variant "Mortal40"%string [(Field None 2%N None [])] 40%N []); (Variant "Mortal41"%string [(Field None 2%N None [])] 41%N []); (Variant "Mortal42"%string [(Field None 2%N None [])] 42%N []); (Variant "Mortal43"%string [(Field None 2%N None [])] 43%N []); (Variant "Mortal44"%string [(Field None 2%N None [])] 44%N []); (Variant "Mortal45"%string [(Field None 2%N None [])] 45%N []); (Variant "Mortal46"%string [(Field None 2%N None [])] 46%N []); (Variant "Mortal47"%string [(Field None 2%N None [])] 47%N []); (Variant "Mortal48"%string [(Field None 2%N None [])] 48%N []); (Variant "Mortal49"%string [(Field None 2%N None [])] 49%N []); (Variant "Mortal50"%string [(Field None 2%N None [])] 50%N []); (Variant "Mortal51"%string [(Field None 2%N None [])] 51%N []); (Variant "Mortal52"%string [(Field None 2%N None [])] 52%N []); (Variant "Mortal53"%string [(Field None 2%N None [])] 53%N []); (Variant "Mortal54"%string [(Field None 2%N None [])] 54%N []); (Variant "Mortal55"%string [(Field None 2%N None [])] 55%N []); (Variant "Mortal56"%string [(Field None 2%N None [])] 56%N []); (Variant "Mortal57"%string [(Field None 2%N None [])] 57%N []); (Variant "Mortal58"%string [(Field None 2%N None [])] 58%N []); (Variant "Mortal59"%string [(Field None 2%N None [])] 59%N []); (Variant "Mortal60"%string [(Field None 2%N None [])] 60%N []); (Variant "Mortal61"%string [(Field None 2%N None [])] 61%N []); (Variant "Mortal62"%string [(Field None 2%N None [])] 62%N []); (Variant "Mortal63"%string [(Field None 2%N None [])] 63%N []); (Variant "Mortal64"%string [(Field None 2%N None [])] 64%N []); (Variant "Mortal65"%string [(Field None 2%N None [])] 65%N []); (Variant "Mortal66"%string [(Field None 2%N None [])] 66%N []); (Variant "Mortal67"%string [(Field None 2%N None [])] 67%N []); (Variant "Mortal68"%string [(Field None 2%N None [])] 68%N []); (Variant "Mortal69"%string [(Field None 2%N None [])] 69%N []); (Variant "Mortal70"%string [(Field None 2%N None [])] 70%N []); (Variant "Mortal71"%string [(Field None 2%N None [])] 71%N []); (Variant "Mortal72"%string [(Field None 2%N None [])] 72%N []); (Variant "Mortal73"%string [(Field None 2%N None [])] 73%N []); (Variant "Mortal74"%string [(Field None 2%N None [])] 74%N []); (Variant "Mortal75"%string [(Field None 2%N None [])] 75%N []); (Variant "Mortal76"%string [(Field None 2%N None [])] 76%N []); (Variant "Mortal77"%string [(Field None 2%N None [])] 77%N []); (Variant "Mortal78"%string [(Field None 2%N None [])] 78%N []); (Variant "Mortal79"%string [(Field None 2%N None [])] 79%N []); (Variant "Mortal80"%string [(Field None 2%N None [])] 80%N []); (Variant "Mortal81"%string [(Field None 2%N None [])] 81%N []); (Variant "Mortal82"%string [(Field None 2%N None [])] 82%N []); (Variant "Mortal83"%string [(Field None 2%N None [])] 83%N []); (Variant "Mortal84"%string [(Field None 2%N None [])] 84%N []); (Variant "Mortal85"%string [(Field None 2%N None [])] 85%N []); (Variant "Mortal86"%string [(Field None 2%N None [])] 86%N []); (Variant "Mortal87"%string [(Field None 2%N None [])] 87%N []); (Variant "Mortal88"%string [(Field None 2%N None [])] 88%N []); (Variant "Mortal89"%string [(Field None 2%N None [])] 89%N []); (Variant "Mortal90"%string [(Field None 2%N None [])] 90%N []); (Variant "Mortal91"%string [(Field None 2%N None [])] 91%N []); (Variant "Mortal92"%string [(Field None 2%N None [])] 92%N []); (Variant "Mortal93"%string [(Field None 2%N None [])] 93%N []); (Variant "Mortal94"%string [(Field None 2%N None [])] 94%N []); (Variant "Mortal95"%string [(Field None 2%N None [])] 95%N []); (Variant "Mortal96"%string [(Field None 2%N None [])] 96%N []); (Variant "Mortal97"%string [(Field None 2%N None [])] 97%N []); (Variant "Mortal98"%string [(Field None 2%N None [])] 98%N []); (Variant "Mortal99"%string [(Field None 2%N None [])] 99%N []); (Variant "Mortal100"%string [(Field None 2%N None [])] 100%N []); (Variant "Mortal101"%string [(Field None 2%N None [])] 101%N []); (Variant "Mortal102"%string [(Field None 2%N None [])] 102%N []); (Variant "Mortal103"%string [(Field None 2%N None [])] 103%N []); (Variant "Mortal104"%string [(Field None 2%N None [])] 104%N []); (Variant "Mortal105"%string [(Field None 2%N None [])] 105%N []); (Variant "Mortal106"%string [(Field None 2%N None [])] 106%N []); (Variant "Mortal107"%string [(Field None 2%N None [])] 107%N []); (Variant "Mortal108"%string [(Field None 2%N None [])] 108%N []); (Variant "Mortal109"%string [(Field None 2%N None [])] 109%N []); (Variant "Mortal110"%string [(Field None 2%N None [])] 110%N []); (Variant "Mortal111"%string [(Field None 2%N None [])] 111%N []); (Variant "Mortal112"%string [(Field None 2%N None [])] 112%N []); (Variant "Mortal113"%string [(Field None 2%N None [])] 113%N []); (Variant "Mortal114"%string [(Field None 2%N None [])] 114%N []); (Variant "Mortal115"%string [(Field None 2%N None [])] 115%N []); (Variant "Mortal116"%string [(Field None 2%N None [])] 116%N []); (Variant "Mortal117"%string [(Field None 2%N None [])] 117%N []); (Variant "Mortal118"%string [(Field None 2%N None [])] 118%N []); (Variant "Mortal119"%string [(Field None 2%N None [])] 119%N []); (Variant "Mortal120"%string [(Field None 2%N None [])] 120%N []); (Variant "Mortal121"%string [(Field None 2%N None [])] 121%N []); (Variant "Mortal122"%string [(Field None 2%N None [])] 122%N []); (Variant "Mortal123"%string [(Field None 2%N None [])] 123%N []); (Variant "Mortal124"%string [(Field None 2%N None [])] 124%N []); (Variant "Mortal125"%string [(Field None 2%N None [])] 125%N []); (Variant "Mortal126"%string [(Field None 2%N None [])] 126%N []); (Variant "Mortal127"%string [(Field None 2%N None [])] 127%N []); (Variant "Mortal128"%string [(Field None 2%N None [])] 128%N []); (Variant "Mortal129"%string [(Field None 2%N None [])] 129%N []); (Variant "Mortal130"%string [(Field None 2%N None [])] 130%N []); (Variant "Mortal131"%string [(Field None 2%N None [])] 131%N []); (Variant "Mortal132"%string [(Field None 2%N None [])] 132%N []); (Variant "Mortal133"%string [(Field None 2%N None [])] 133%N []); (Variant "Mortal134"%string [(Field None 2%N None [])] 134%N []); (Variant "Mortal135"%string [(Field None 2%N None [])] 135%N []); (Variant "Mortal136"%string [(Field None 2%N None [])] 136%N []); (Variant "Mortal137"%string [(Field None 2%N None [])] 137%N []); (Variant "Mortal138"%string [(Field None 2%N None [])] 138%N []); (Variant "Mortal139"%string [(Field None 2%N None [])] 139%N []); (Variant "Mortal140"%string [(Field None 2%N None [])] 140%N []); (Variant "Mortal141"%string [(Field None 2%N None [])] 141%N []); (Variant "Mortal142"%string [(Field None 2%N None [])] 142%N []); (Variant "Mortal143"%string [(Field None 2%N None [])] 143%N []); (Variant "Mortal144"%string [(Field None 2%N None [])] 144%N []); (Variant "Mortal145"%string [(Field None 2%N None [])] 145%N []); (Variant "Mortal146"%string [(Field None 2%N None [])] 146%N []); (Variant "Mortal147"%string [(Field None 2%N None [])] 147%N []); (Variant "Mortal148"%string [(Field None 2%N None [])] 148%N []); (Variant "Mortal149"%string [(Field None 2%N None [])] 149%N []); (Variant "Mortal150"%string [(Field None 2%N None [])] 150%N []); (Variant "Mortal151"%string [(Field None 2%N None [])] 151%N []); (Variant "Mortal152"%string [(Field None 2%N None [])] 152%N []); (Variant "Mortal153"%string [(Field None 2%N None [])] 153%N []); (Variant "Mortal154"%string [(Field None 2%N None [])] 154%N []); (Variant "Mortal155"%string [(Field None 2%N None [])] 155%N []); (Variant "Mortal156"%string [(Field None 2%N None [])] 156%N []); (Variant "Mortal157"%string [(Field None 2%N None [])] 157%N []); (Variant "Mortal158"%string [(Field None 2%N None [])] 158%N []); (Variant "Mortal159"%string [(Field None 2%N None [])] 159%N []); (Variant "Mortal160"%string [(Field None 2%N None [])] 160%N []); (Variant "Mortal161"%string [(Field None 2%N None [])] 161%N []); (Variant "Mortal162"%string [(Field None 2%N None [])] 162%N []); (Variant "Mortal163"%string [(Field None 2%N None [])] 163%N []); (Variant "Mortal164"%string [(Field None 2%N None [])] 164%N []); (Variant "Mortal165"%string [(Field None 2%N None [])] 165%N []); (Variant "Mortal166"%string [(Field None 2%N None [])] 166%N []); (Variant "Mortal167"%string [(Field None 2%N None [])] 167%N []); (Variant "Mortal168"%string [(Field None 2%N None [])] 168%N []); (Variant "Mortal169"%string [(Field None 2%N None [])] 169%N []); (Variant "Mortal170"%string [(Field None 2%N None [])] 170%N []); (Variant "Mortal171"%string [(Field None 2%N None [])] 171%N []); (Variant "Mortal172"%string [(Field None 2%N None [])] 172%N []); (Variant "Mortal173"%string [(Field None 2%N None [])] 173%N []); (Variant "Mortal174"%string [(Field None 2%N None [])] 174%N []); (Variant "Mortal175"%string [(Field None 2%N None [])] 175%N []); (Variant "Mortal176"%string [(Field None 2%N None [])] 176%N []); (Variant "Mortal177"%string [(Field None 2%N None [])] 177%N []); (Variant "Mortal178"%string [(Field None 2%N None [])] 178%N []); (Variant "Mortal179"%string [(Field None 2%N None [])] 179%N []); (Variant "Mortal180"%string [(Field None 2%N None [])] 180%N []); (Variant "Mortal181"%string [(Field None 2%N None [])] 181%N []); (Variant "Mortal182"%string [(Field None 2%N None [])] 182%N []); (Variant "Mortal183"%string [(Field None 2%N None [])] 183%N []); (Variant "Mortal184"%string [(Field None 2%N None [])] 184%N []); (Variant "Mortal185"%string [(Field None 2%N None [])] 185%N []); (Variant "Mortal186"%string [(Field None 2%N None [])] 186%N []); (Variant "Mortal187"%string [(Field None 2%N None [])] 187%N []); (Variant "Mortal188"%string [(Field None 2%N None [])] 188%N []); (Variant "Mortal189"%string [(Field None 2%N None [])] 189%N []); (Variant "Mortal190"%string [(Field None 2%N None [])] 190%N []); (Variant "Mortal191"%string [(Field None 2%N None [])] 191%N []); (Variant "Mortal192"%string [(Field None 2%N None [])] 192%N []); (Variant "Mortal193"%string [(Field None 2%N None [])] 193%N []); (Variant "Mortal194"%string [(Field None 2%N None [])] 194%N []); (Variant "Mortal195"%string [(Field None 2%N None [])] 195%N []); (Variant "Mortal196"%string [(Field None 2%N None [])] 196%N []); (Variant "Mortal197"%string [(Field None 2%N None [])] 197%N []); (Variant "Mortal198"%string [(Field None 2%N None [])] 198%N []); (Variant "Mortal199"%string [(Field None 2%N None [])] 199%N []); (Variant "Mortal200"%string [(Field None 2%N None [])] 200%N []); (Variant "Mortal201"%string [(Field None 2%N None [])] 201%N []); (Variant "Mortal202"%string [(Field None 2%N None [])] 202%N []); (Variant "Mortal203"%string [(Field None 2%N None [])] 203%N []); (Variant "Mortal204"%string [(Field None 2%N None [])] 204%N []); (Variant "Mortal205"%string [(Field None 2%N None [])] 205%N []); (Variant "Mortal206"%string [(Field None 2%N None [])] 206%N []); (Variant "Mortal207"%string [(Field None 2%N None [])] 207%N []); (Variant "Mortal208"%string [(Field None 2%N None [])] 208%N []); (Variant "Mortal209"%string [(Field None 2%N None [])] 209%N []); (Variant "Mortal210"%string [(Field None 2%N None [])] 210%N []); (Variant "Mortal211"%string [(Field None 2%N None [])] 211%N []); (Variant "Mortal212"%string [(Field None 2%N None [])] 212%N []); (Variant "Mortal213"%string [(Field None 2%N None [])] 213%N []); (Variant "Mortal214"%string [(Field None 2%N None [])] 214%N []); (Variant "Mortal215"%string [(Field None 2%N None [])] 215%N []); (Variant "Mortal216"%string [(Field None 2%N None [])] 216%N []); (Variant "Mortal217"%string [(Field None 2%N None [])] 217%N []); (Variant "Mortal218"%string [(Field None 2%N None [])] 218%N []); (Variant "Mortal219"%string [(Field None 2%N None [])] 219%N []); (Variant "Mortal220"%string [(Field None 2%N None [])] 220%N []); (Variant "Mortal221"%string [(Field None 2%N None [])] 221%N []); (Variant "Mortal222"%string [(Field None 2%N None [])] 222%N []); (Variant "Mortal223"%string [(Field None 2%N None [])] 223%N []); (Variant "Mortal224"%string [(Field None 2%N None [])] 224%N []); (Variant "Mortal225"%string [(Field None 2%N None [])] 225%N []); (Variant "Mortal226"%string [(Field None 2%N None [])] 226%N []); (Variant "Mortal227"%string [(Field None 2%N None [])] 227%N []); (Variant "Mortal228"%string [(Field None 2%N None [])] 228%N []); (Variant "Mortal229"%string [(Field None 2%N None [])] 229%N []); (Variant "Mortal230"%string [(Field None 2%N None [])] 230%N []); (Variant "Mortal231"%string [(Field None 2%N None [])] 231%N []); (Variant "Mortal232"%string [(Field None 2%N None [])] 232%N []); (Variant "Mortal233"%string [(Field None 2%N None [])] 233%N []); (Variant "Mortal234"%string [(Field None 2%N None [])] 234%N []); (Variant "Mortal235"%string [(Field None 2%N None [])] 235%N []); (Variant "Mortal236"%string [(Field None 2%N None [])] 236%N []); (Variant "Mortal237"%string [(Field None 2%N None [])] 237%N []); (Variant "Mortal238"%string [(Field None 2%N None [])] 238%N []); (Variant "Mortal239"%string [(Field None 2%N None [])] 239%N []); (Variant "Mortal240"%string [(Field None 2%N None [])] 240%N []); (Variant "Mortal241"%string [(Field None 2%N None [])] 241%N []); (Variant "Mortal242"%string [(Field None 2%N None [])] 242%N []); (Variant "Mortal243"%string [(Field None 2%N None [])] 243%N []); (Variant "Mortal244"%string [(Field None 2%N None [])] 244%N []); (Variant "Mortal245"%string [(Field None 2%N None [])] 245%N []); (Variant "Mortal246"%string [(Field None 2%N None [])] 246%N []); (Variant "Mortal247"%string [(Field None 2%N None [])] 247%N []); (Variant "Mortal248"%string [(Field None 2%N None [])] 248%N []); (Variant "Mortal249"%string [(Field None 2%N None [])] 249%N []); (Variant "Mortal250"%string [(Field None 2%N None [])] 250%N []); (Variant "Mortal251"%string [(Field None 2%N None [])] 251%N []); (Variant "Mortal252"%string [(Field None 2%N None [])] 252%N []); (Variant "Mortal253"%string [(Field None 2%N None [])] 253%N []); (Variant "Mortal254"%string [(Field None 2%N None [])] 254%N []); (Variant "Mortal255"%string [(Field None 2%N None [])] 255%N [])]) []).
Definition md_t782 : ty := (Ty ["frame_system"%string; "extensions"%string; "check_nonce"%string; "CheckNonce"%string] [("T"%string,None)] (TComposite [(Field None 66%N (Some "T::Index"%string) [])]) []).
Definition md_t783 : ty := (Ty ["frame_system"%string; "extensions"%string; "check_weight"%string; "CheckWeight"%string] [("T"%string,None)] (TComposite []) []).
Definition md_t784 : ty := (Ty ["pallet_transaction_payment"%string; "ChargeTransactionPayment"%string] [("T"%string,None)] (TComposite [(Field None 83%N (Some "BalanceOf<T>"%string) [])]) []).
Definition md_t785 : ty := (Ty ["bifrost_polkadot_runtime"%string; "Runtime"%string] [] (TComposite []) []).
Definition md_types : list ty := [md_t0; md_t1; md_t2; md_t3; md_t4; md_t5; md_t6; md_t7; md_t8; md_t9; md_t10; md_t11; md_t12; md_t13; md_t14; md_t15; md_t16; md_t17; md_t18; md_t19; md_t20; md_t21; md_t22; md_t23; md_t24; md_t25; md_t26; md_t27; md_t28; md_t29; md_t30; md_t31; md_t32; md_t33; md_t34; md_t35; md_t36; md_t37; md_t38; md_t39; md_t40; md_t41; md_t42; md_t43; md_t44; md_t45; md_t46; md_t47; md_t48; md_t49; md_t50; md_t51; md_t52; md_t53; md_t54; md_t55; md_t56; md_t57; md_t58; md_t59; md_t60; md_t61; md_t62; md_t63; md_t64; md_t65; md_t66; md_t67; md_t68; md_t69; md_t70; md_t71; md_t72; md_t73; md_t74; md_t75; md_t76; md_t77; md_t78; md_t79; md_t80; md_t81; md_t82; md_t83; md_t84; md_t85; md_t86; md_t87; md_t88; md_t89; md_t90; md_t91; md_t92; md_t93; md_t94; md_t95; md_t96; md_t97; md_t98; md_t99; md_t100; md_t101; md_t102; md_t103; md_t104; md_t105; md_t106; md_t107; md_t108; md_t109; md_t110; md_t111; md_t112; md_t113; md_t114; md_t115; md_t116; md_t117; md_t118; md_t119; md_t120; md_t121; md_t122; md_t123; md_t124; md_t125; md_t126; md_t127; md_t128; md_t129; md_t130; md_t131; md_t132; md_t133; md_t134; md_t135; md_t136; md_t137; md_t138; md_t139; md_t140; md_t141; md_t142; md_t143; md_t144; md_t145; md_t146; md_t147; md_t148; md_t149; md_t150; md_t151; md_t152; md_t153; md_t154; md_t155; md_t156; md_t157; md_t158; md_t159; md_t160; md_t161; md_t162; md_t163; md_t164; md_t165; md_t166; md_t167; md_t168; md_t169; md_t170; md_t171; md_t172; md_t173; md_t174; md_t175; md_t176; md_t177; md_t178; md_t179; md_t180; md_t181; md_t182; md_t183; md_t184; md_t185; md_t186; md_t187; md_t188; md_t189; md_t190; md_t191; md_t192; md_t193; md_t194; md_t195; md_t196; md_t197; md_t198; md_t199; md_t200; md_t201; md_t202; md_t203; md_t204; md_t205; md_t206; md_t207; md_t208; md_t209; md_t210; md_t211; md_t212; md_t213; md_t214; md_t215; md_t216; md_t217; md_t218; md_t219; md_t220; md_t221; md_t222; md_t223; md_t224; md_t225; md_t226; md_t227; md_t228; md_t229; md_t230; md_t231; md_t232; md_t233; md_t234; md_t235; md_t236; md_t237; md_t238; md_t239; md_t240; md_t241; md_t242; md_t243; md_t244; md_t245; md_t246; md_t247; md_t248; md_t249; md_t250; md_t251; md_t252; md_t253; md_t254; md_t255; md_t256; md_t257; md_t258; md_t259; md_t260; md_t261; md_t262; md_t263; md_t264; md_t265; md_t266; md_t267; md_t268; md_t269; md_t270; md_t271; md_t272; md_t273; md_t274; md_t275; md_t276; md_t277; md_t278; md_t279; md_t280; md_t281; md_t282; md_t283; md_t284; md_t285; md_t286; md_t287; md_t288; md_t289; md_t290; md_t291; md_t292; md_t293; md_t294; md_t295; md_t296; md_t297; md_t298; md_t299; md_t300; md_t301; md_t302; md_t303; md_t304; md_t305; md_t306; md_t307; md_t308; md_t309; md_t310; md_t311; md_t312; md_t313; md_t314; md_t315; md_t316; md_t317; md_t318; md_t319; md_t320; md_t321; md_t322; md_t323; md_t324; md_t325; md_t326; md_t327; md_t328; md_t329; md_t330; md_t331; md_t332; md_t333; md_t334; md_t335; md_t336; md_t337; md_t338; md_t339; md_t340; md_t341; md_t342; md_t343; md_t344; md_t345; md_t346; md_t347; md_t348; md_t349; md_t350; md_t351; md_t352; md_t353; md_t354; md_t355; md_t356; md_t357; md_t358; md_t359; md_t360; md_t361; md_t362; md_t363; md_t364; md_t365; md_t366; md_t367; md_t368; md_t369; md_t370; md_t371; md_t372; md_t373; md_t374; md_t375; md_t376; md_t377; md_t378; md_t379; md_t380; md_t381; md_t382; md_t383; md_t384; md_t385; md_t386; md_t387; md_t388; md_t389; md_t390; md_t391; md_t392; md_t393; md_t394; md_t395; md_t396; md_t397; md_t398; md_t399; md_t400; md_t401; md_t402; md_t403; md_t404; md_t405; md_t406; md_t407; md_t408; md_t409; md_t410; md_t411; md_t412; md_t413; md_t414; md_t415; md_t416; md_t417; md_t418; md_t419; md_t420; md_t421; md_t422; md_t423; md_t424; md_t425; md_t426; md_t427; md_t428; md_t429; md_t430; md_t431; md_t432; md_t433; md_t434; md_t435; md_t436; md_t437; md_t438; md_t439; md_t440; md_t441; md_t442; md_t443; md_t444; md_t445; md_t446; md_t447; md_t448; md_t449; md_t450; md_t451; md_t452; md_t453; md_t454; md_t455; md_t456; md_t457; md_t458; md_t459; md_t460; md_t461; md_t462; md_t463; md_t464; md_t465; md_t466; md_t467; md_t468; md_t469; md_t470; md_t471; md_t472; md_t473; md_t474; md_t475; md_t476; md_t477; md_t478; md_t479; md_t480; md_t481; md_t482; md_t483; md_t484; md_t485; md_t486; md_t487; md_t488; md_t489; md_t490; md_t491; md_t492; md_t493; md_t494; md_t495; md_t496; md_t497; md_t498; md_t499; md_t500; md_t501; md_t502; md_t503; md_t504; md_t505; md_t506; md_t507; md_t508; md_t509; md_t510; md_t511; md_t512; md_t513; md_t514; md_t515; md_t516; md_t517; md_t518; md_t519; md_t520; md_t521; md_t522; md_t523; md_t524; md_t525; md_t526; md_t527; md_t528; md_t529; md_t530; md_t531; md_t532; md_t533; md_t534; md_t535; md_t536; md_t537; md_t538; md_t539; md_t540; md_t541; md_t542; md_t543; md_t544; md_t545; md_t546; md_t547; md_t548; md_t549; md_t550; md_t551; md_t552; md_t553; md_t554; md_t555; md_t556; md_t557; md_t558; md_t559; md_t560; md_t561; md_t562; md_t563; md_t564; md_t565; md_t566; md_t567; md_t568; md_t569; md_t570; md_t571; md_t572; md_t573; md_t574; md_t575; md_t576; md_t577; md_t578; md_t579; md_t580; md_t581; md_t582; md_t583; md_t584; md_t585; md_t586; md_t587; md_t588; md_t589; md_t590; md_t591; md_t592; md_t593; md_t594; md_t595; md_t596; md_t597; md_t598; md_t599; md_t600; md_t601; md_t602; md_t603; md_t604; md_t605; md_t606; md_t607; md_t608; md_t609; md_t610; md_t611; md_t612; md_t613; md_t614; md_t615; md_t616; md_t617; md_t618; md_t619; md_t620; md_t621; md_t622; md_t623; md_t624; md_t625; md_t626; md_t627; md_t628; md_t629; md_t630; md_t631; md_t632; md_t633; md_t634; md_t635; md_t636; md_t637; md_t638; md_t639; md_t640; md_t641; md_t642; md_t643; md_t644; md_t645; md_t646; md_t647; md_t648; md_t649; md_t650; md_t651; md_t652; md_t653; md_t654; md_t655; md_t656; md_t657; md_t658; md_t659; md_t660; md_t661; md_t662; md_t663; md_t664; md_t665; md_t666; md_t667; md_t668; md_t669; md_t670; md_t671; md_t672; md_t673; md_t674; md_t675; md_t676; md_t677; md_t678; md_t679; md_t680; md_t681; md_t682; md_t683; md_t684; md_t685; md_t686; md_t687; md_t688; md_t689; md_t690; md_t691; md_t692; md_t693; md_t694; md_t695; md_t696; md_t697; md_t698; md_t699; md_t700; md_t701; md_t702; md_t703; md_t704; md_t705; md_t706; md_t707; md_t708; md_t709; md_t710; md_t711; md_t712; md_t713; md_t714; md_t715; md_t716; md_t717; md_t718; md_t719; md_t720; md_t721; md_t722; md_t723; md_t724; md_t725; md_t726; md_t727; md_t728; md_t729; md_t730; md_t731; md_t732; md_t733; md_t734; md_t735; md_t736; md_t737; md_t738; md_t739; md_t740; md_t741; md_t742; md_t743; md_t744; md_t745; md_t746; md_t747; md_t748; md_t749; md_t750; md_t751; md_t752; md_t753; md_t754; md_t755; md_t756; md_t757; md_t758; md_t759; md_t760; md_t761; md_t762; md_t763; md_t764; md_t765; md_t766; md_t767; md_t768; md_t769; md_t770; md_t771; md_t772; md_t773; md_t774; md_t775; md_t776; md_t777; md_t778; md_t779; md_t780; md_t781; md_t782; md_t783; md_t784; md_t785].
Definition md := metadata_of_v14 (MetadataV14 md_types [(Pallet "System"%string [(Constant "Version"%string [64%N; 98%N; 105%N; 102%N; 114%N; 111%N; 115%N; 116%N; 95%N; 112%N; 111%N; 108%N; 107%N; 97%N; 100%N; 111%N; 116%N; 64%N; 98%N; 105%N; 102%N; 114%N; 111%N; 115%N; 116%N; 95%N; 112%N; 111%N; 108%N; 107%N; 97%N; 100%N; 111%N; 116%N; 0%N; 0%N; 0%N; 0%N; 214%N; 3%N; 0%N; 0%N; 0%N; 0%N; 0%N; 0%N; 64%N; 210%N; 188%N; 152%N; 151%N; 238%N; 208%N; 143%N; 21%N; 3%N; 0%N; 0%N; 0%N; 223%N; 106%N; 203%N; 104%N; 153%N; 7%N; 96%N; 155%N; 4%N; 0%N; 0%N; 0%N; 64%N; 254%N; 58%N; 212%N; 1%N; 248%N; 149%N; 154%N; 6%N; 0%N; 0%N; 0%N; 188%N; 157%N; 137%N; 144%N; 79%N; 91%N; 146%N; 63%N; 1%N; 0%N; 0%N; 0%N; 55%N; 200%N; 187%N; 19%N; 80%N; 169%N; 162%N; 168%N; 4%N; 0%N; 0%N; 0%N; 55%N; 227%N; 151%N; 252%N; 124%N; 145%N; 245%N; 228%N; 2%N; 0%N; 0%N; 0%N; 247%N; 139%N; 39%N; 139%N; 229%N; 63%N; 69%N; 76%N; 2%N; 0%N; 0%N; 0%N; 171%N; 60%N; 5%N; 114%N; 41%N; 31%N; 235%N; 139%N; 1%N; 0%N; 0%N; 0%N; 234%N; 147%N; 227%N; 241%N; 111%N; 61%N; 105%N; 98%N; 2%N; 0%N; 0%N; 0%N; 221%N; 113%N; 141%N; 92%N; 197%N; 50%N; 98%N; 212%N; 1%N; 0%N; 0%N; 0%N; 248%N; 119%N; 70%N; 143%N; 76%N; 160%N; 232%N; 38%N; 1%N; 0%N; 0%N; 0%N; 96%N; 174%N; 212%N; 60%N; 181%N; 36%N; 86%N; 241%N; 1%N; 0%N; 0%N; 0%N; 220%N; 101%N; 84%N; 104%N; 216%N; 57%N; 65%N; 32%N; 1%N; 0%N; 0%N; 0%N; 13%N; 148%N; 184%N; 12%N; 23%N; 134%N; 48%N; 240%N; 1%N; 0%N; 0%N; 0%N; 155%N; 245%N; 223%N; 198%N; 79%N; 21%N; 162%N; 75%N; 1%N; 0%N; 0%N; 0%N; 86%N; 239%N; 239%N; 109%N; 187%N; 33%N; 59%N; 175%N; 1%N; 0%N; 0%N; 0%N; 1%N; 0%N; 0%N; 0%N; 0%N] 443%N)]); (Pallet "Timestamp"%string []); (Pallet "Indices"%string []); (Pallet "ParachainSystem"%string []); (Pallet "ParachainInfo"%string []); (Pallet "Balances"%string []); (Pallet "TransactionPayment"%string []); (Pallet "Authorship"%string []); (Pallet "CollatorSelection"%string []); (Pallet "Session"%string []); (Pallet "Aura"%string []); (Pallet "AuraExt"%string []); (Pallet "Democracy"%string []); (Pallet "Council"%string []); (Pallet "TechnicalCommittee"%string []); (Pallet "PhragmenElection"%string []); (Pallet "CouncilMembership"%string []); (Pallet "TechnicalMembership"%string []); (Pallet "ConvictionVoting"%string []); (Pallet "Referenda"%string []); (Pallet "Whitelist"%string []); (Pallet "XcmpQueue"%string []); (Pallet "PolkadotXcm"%string []); (Pallet "CumulusXcm"%string []); (Pallet "DmpQueue"%string []); (Pallet "Utility"%string []); (Pallet "Scheduler"%string []); (Pallet "Proxy"%string []); (Pallet "Multisig"%string []); (Pallet "Identity"%string []); (Pallet "Vesting"%string []); (Pallet "Treasury"%string []); (Pallet "Bounties"%string []); (Pallet "Tips"%string []); (Pallet "Preimage"%string []); (Pallet "XTokens"%string []); (Pallet "Tokens"%string []); (Pallet "Currencies"%string []); (Pallet "UnknownTokens"%string []); (Pallet "OrmlXcm"%string []); (Pallet "ZenlinkProtocol"%string []); (Pallet "MerkleDistributor"%string []); (Pallet "FlexibleFee"%string []); (Pallet "Salp"%string []); (Pallet "CallSwitchgear"%string []); (Pallet "AssetRegistry"%string []); (Pallet "VtokenMinting"%string []); (Pallet "Slp"%string []); (Pallet "XcmInterface"%string []); (Pallet "TokenConversion"%string []); (Pallet "Farming"%string []); (Pallet "SystemStaking"%string []); (Pallet "SystemMaker"%string []); (Pallet "FeeShare"%string []); (Pallet "CrossInOut"%string []); (Pallet "VeMinting"%string []); (Pallet "Slpx"%string []); (Pallet "FellowshipCollective"%string []); (Pallet "FellowshipReferenda"%string []); (Pallet "StableAsset"%string []); (Pallet "StablePool"%string []); (Pallet "VtokenVoting"%string [])] 768%N 4%N [(ExtMeta "CheckNonZeroSender"%string 776%N 47%N); (ExtMeta "CheckSpecVersion"%string 777%N 4%N); (ExtMeta "CheckTxVersion"%string 778%N 4%N); (ExtMeta "CheckGenesis"%string 779%N 12%N); (ExtMeta "CheckMortality"%string 780%N 12%N); (ExtMeta "CheckNonce"%string 782%N 47%N); (ExtMeta "CheckWeight"%string 783%N 47%N); (ExtMeta "ChargeTransactionPayment"%string 784%N 47%N)]).
Definition nv := match m_spec_name_version md with inl x => x | inr _ => SpecNameVersion "" [] end.
Example tr_12_call :
 match (parse_transaction_unmarked (slice_buffer (unhex "78000006000001010000004a6e76f5062e334f7322752db2dae9d19edfe764172aaed603000001000000262e1b2ad728475fd6fe88e62d34c200abe6fd693931ddad144059b1eb884e5bc16d68cf9978c938e405eec35d283be02e720072e8a0f66b11c722bb85d86f01"%string)) md (Some (unhex "262e1b2ad728475fd6fe88e62d34c200abe6fd693931ddad144059b1eb884e5b")) 0 tt) with (Ok (c, x), _, _) => show_all bs (card_call b58 idn (ShortSpecs 6%N 12%N "BNC") (string_of_bytes (spec_name nv)) c 0) | _ => "FAIL"%string end
 = "Pallet: SystemStaking
  Call: token_config
    Field Name: token
      Enum
        Enum Variant Name: Native
          Enum
            Enum Variant Name: KAR
    Field Name: exec_delay
      Enum
        Enum Variant Name: None
    Field Name: system_stakable_farming_rate
      Enum
        Enum Variant Name: None
    Field Name: add_or_sub
      Enum
        Enum Variant Name: Some
          Bool: true
    Field Name: system_stakable_base
      Enum
        Enum Variant Name: None
    Field Name: farming_poolids
      Enum
        Enum Variant Name: None
    Field Name: lptoken_rates
      Enum
        Enum Variant Name: None"%string.
Proof. vm_compute. reflexivity. Qed.
Example tr_12_extensions :
 match (parse_transaction_unmarked (slice_buffer (unhex "78000006000001010000004a6e76f5062e334f7322752db2dae9d19edfe764172aaed603000001000000262e1b2ad728475fd6fe88e62d34c200abe6fd693931ddad144059b1eb884e5bc16d68cf9978c938e405eec35d283be02e720072e8a0f66b11c722bb85d86f01"%string)) md (Some (unhex "262e1b2ad728475fd6fe88e62d34c200abe6fd693931ddad144059b1eb884e5b")) 0 tt) with (Ok (c, x), _, _) => show_all bs (card_extensions b58 idn (ShortSpecs 6%N 12%N "BNC") (string_of_bytes (spec_name nv)) x) | _ => "FAIL"%string end
 = "Era: Mortal, phase: 1764, period: 2048
Nonce: 193051997
Tip: 231504222224632.337793143774330474361679 TBNC
Chain: bifrost_polkadot982
Tx Version: 1
Genesis Hash: 262e1b2ad728475fd6fe88e62d34c200abe6fd693931ddad144059b1eb884e5b
Block Hash: c16d68cf9978c938e405eec35d283be02e720072e8a0f66b11c722bb85d86f01"%string.
Proof. vm_compute. reflexivity. Qed.
