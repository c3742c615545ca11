(** GENERATED from /repo/for_tests/astar66 and /repo/src/tests.rs: the tests of the
    repository on this metadata replayed on the model (tests of the fidelity of the
    model, not proofs of properties). Identicons are not compared. *)
From Verif Require Import Base Compact Types Indicators Decode Sign Meta Balance Cards Unchecked.
From Verif Require Address.
Definition b58 := Address.address.
Definition idn (b : bytes) : bytes := [].
Definition bs := Address.bits_text.
Fixpoint unhex (s : string) : bytes :=
  let v c := let n := N_of_ascii c in if (n <? 58)%N then (n - 48)%N else (n - 87)%N in
  match s with String a (String b r) => (16 * v a + v b)%N :: unhex r | _ => [] end.
Definition md_t0 : ty := (Ty ["sp_core"%string; "crypto"%string; "AccountId32"%string] [] (TComposite [(Field None 1%N (Some "[u8; 32]"%string) [])]) []).
Definition md_t1 : ty := (Ty [] [] (TArray 32%N 2%N) []).
Definition md_t2 : ty := (Ty [] [] (TPrimitive (PrU U8)) []).
Definition md_t3 : ty := (Ty ["frame_system"%string; "AccountInfo"%string] [("Index"%string,(Some 4%N)); ("AccountData"%string,(Some 5%N))] (TComposite [(Field (Some "nonce"%string) 4%N (Some "Index"%string) []); (Field (Some "consumers"%string) 4%N (Some "RefCount"%string) []); (Field (Some "providers"%string) 4%N (Some "RefCount"%string) []); (Field (Some "sufficients"%string) 4%N (Some "RefCount"%string) []); (Field (Some "data"%string) 5%N (Some "AccountData"%string) [])]) []).
Definition md_t4 : ty := (Ty [] [] (TPrimitive (PrU U32)) []).
Definition md_t5 : ty := (Ty ["pallet_balances"%string; "types"%string; "AccountData"%string] [("Balance"%string,(Some 6%N))] (TComposite [(Field (Some "free"%string) 6%N (Some "Balance"%string) []); (Field (Some "reserved"%string) 6%N (Some "Balance"%string) []); (Field (Some "frozen"%string) 6%N (Some "Balance"%string) []); (Field (Some "flags"%string) 7%N (Some "ExtraFlags"%string) [])]) []).
Definition md_t6 : ty := (Ty [] [] (TPrimitive (PrU U128)) []).
Definition md_t7 : ty := (Ty ["pallet_balances"%string; "types"%string; "ExtraFlags"%string] [] (TComposite [(Field None 6%N (Some "u128"%string) [])]) []).
Definition md_t8 : ty := (Ty ["frame_support"%string; "dispatch"%string; "PerDispatchClass"%string] [("T"%string,(Some 9%N))] (TComposite [(Field (Some "normal"%string) 9%N (Some "T"%string) []); (Field (Some "operational"%string) 9%N (Some "T"%string) []); (Field (Some "mandatory"%string) 9%N (Some "T"%string) [])]) []).
Definition md_t9 : ty := (Ty ["sp_weights"%string; "weight_v2"%string; "Weight"%string] [] (TComposite [(Field (Some "ref_time"%string) 10%N (Some "u64"%string) []); (Field (Some "proof_size"%string) 10%N (Some "u64"%string) [])]) []).
Definition md_t10 : ty := (Ty [] [] (TCompact 11%N) []).
Definition md_t11 : ty := (Ty [] [] (TPrimitive (PrU U64)) []).
Definition md_t12 : ty := (Ty ["primitive_types"%string; "H256"%string] [] (TComposite [(Field None 1%N (Some "[u8; 32]"%string) [])]) []).
Definition md_t13 : ty := (Ty [] [] (TSequence 2%N) []).
Definition md_t14 : ty := (Ty ["sp_runtime"%string; "generic"%string; "digest"%string; "Digest"%string] [] (TComposite [(Field (Some "logs"%string) 15%N (Some "Vec<DigestItem>"%string) [])]) []).
Definition md_t15 : ty := (Ty [] [] (TSequence 16%N) []).
Definition md_t16 : ty := (Ty ["sp_runtime"%string; "generic"%string; "digest"%string; "DigestItem"%string] [] (TVariant [(Variant "PreRuntime"%string [(Field None 17%N (Some "ConsensusEngineId"%string) []); (Field None 13%N (Some "Vec<u8>"%string) [])] 6%N []); (Variant "Consensus"%string [(Field None 17%N (Some "ConsensusEngineId"%string) []); (Field None 13%N (Some "Vec<u8>"%string) [])] 4%N []); (Variant "Seal"%string [(Field None 17%N (Some "ConsensusEngineId"%string) []); (Field None 13%N (Some "Vec<u8>"%string) [])] 5%N []); (Variant "Other"%string [(Field None 13%N (Some "Vec<u8>"%string) [])] 0%N []); (Variant "RuntimeEnvironmentUpdated"%string [] 8%N [])]) []).
Definition md_t17 : ty := (Ty [] [] (TArray 4%N 2%N) []).
Definition md_t18 : ty := (Ty [] [] (TSequence 19%N) []).
Definition md_t19 : ty := (Ty ["frame_system"%string; "EventRecord"%string] [("E"%string,(Some 20%N)); ("T"%string,(Some 12%N))] (TComposite [(Field (Some "phase"%string) 142%N (Some "Phase"%string) []); (Field (Some "event"%string) 20%N (Some "E"%string) []); (Field (Some "topics"%string) 122%N (Some "Vec<T>"%string) [])]) []).
Definition md_t20 : ty := (Ty ["astar_runtime"%string; "RuntimeEvent"%string] [] (TVariant [(Variant "System"%string [(Field None 21%N (Some "frame_system::Event<Runtime>"%string) [])] 10%N []); (Variant "Utility"%string [(Field None 30%N (Some "pallet_utility::Event"%string) [])] 11%N []); (Variant "Identity"%string [(Field None 33%N (Some "pallet_identity::Event<Runtime>"%string) [])] 12%N []); (Variant "Multisig"%string [(Field None 34%N (Some "pallet_multisig::Event<Runtime>"%string) [])] 14%N []); (Variant "Proxy"%string [(Field None 36%N (Some "pallet_proxy::Event<Runtime>"%string) [])] 15%N []); (Variant "ParachainSystem"%string [(Field None 39%N (Some "cumulus_pallet_parachain_system::Event<Runtime>"%string) [])] 20%N []); (Variant "TransactionPayment"%string [(Field None 41%N (Some "pallet_transaction_payment::Event<Runtime>"%string) [])] 30%N []); (Variant "Balances"%string [(Field None 42%N (Some "pallet_balances::Event<Runtime>"%string) [])] 31%N []); (Variant "Vesting"%string [(Field None 44%N (Some "pallet_vesting::Event<Runtime>"%string) [])] 32%N []); (Variant "DappsStaking"%string [(Field None 45%N (Some "pallet_dapps_staking::Event<Runtime>"%string) [])] 34%N []); (Variant "BlockReward"%string [(Field None 51%N (Some "pallet_block_reward::Event<Runtime>"%string) [])] 35%N []); (Variant "Assets"%string [(Field None 55%N (Some "pallet_assets::Event<Runtime>"%string) [])] 36%N []); (Variant "CollatorSelection"%string [(Field None 56%N (Some "pallet_collator_selection::Event<Runtime>"%string) [])] 41%N []); (Variant "Session"%string [(Field None 58%N (Some "pallet_session::Event"%string) [])] 42%N []); (Variant "XcmpQueue"%string [(Field None 59%N (Some "cumulus_pallet_xcmp_queue::Event<Runtime>"%string) [])] 50%N []); (Variant "PolkadotXcm"%string [(Field None 62%N (Some "pallet_xcm::Event<Runtime>"%string) [])] 51%N []); (Variant "CumulusXcm"%string [(Field None 116%N (Some "cumulus_pallet_xcm::Event<Runtime>"%string) [])] 52%N []); (Variant "DmpQueue"%string [(Field None 117%N (Some "cumulus_pallet_dmp_queue::Event<Runtime>"%string) [])] 53%N []); (Variant "XcAssetConfig"%string [(Field None 118%N (Some "pallet_xc_asset_config::Event<Runtime>"%string) [])] 54%N []); (Variant "Xtokens"%string [(Field None 119%N (Some "orml_xtokens::Event<Runtime>"%string) [])] 55%N []); (Variant "EVM"%string [(Field None 120%N (Some "pallet_evm::Event<Runtime>"%string) [])] 60%N []); (Variant "Ethereum"%string [(Field None 123%N (Some "pallet_ethereum::Event"%string) [])] 61%N []); (Variant "EthCall"%string [(Field None 132%N (Some "pallet_custom_signatures::Event<Runtime>"%string) [])] 62%N []); (Variant "BaseFee"%string [(Field None 133%N (Some "pallet_base_fee::Event"%string) [])] 63%N []); (Variant "Contracts"%string [(Field None 137%N (Some "pallet_contracts::Event<Runtime>"%string) [])] 70%N []); (Variant "Sudo"%string [(Field None 140%N (Some "pallet_sudo::Event<Runtime>"%string) [])] 99%N [])]) []).
Definition md_t21 : ty := (Ty ["frame_system"%string; "pallet"%string; "Event"%string] [("T"%string,None)] (TVariant [(Variant "ExtrinsicSuccess"%string [(Field (Some "dispatch_info"%string) 22%N (Some "DispatchInfo"%string) [])] 0%N ["An extrinsic completed successfully."%string]); (Variant "ExtrinsicFailed"%string [(Field (Some "dispatch_error"%string) 25%N (Some "DispatchError"%string) []); (Field (Some "dispatch_info"%string) 22%N (Some "DispatchInfo"%string) [])] 1%N ["An extrinsic failed."%string]); (Variant "CodeUpdated"%string [] 2%N ["`:code` was updated."%string]); (Variant "NewAccount"%string [(Field (Some "account"%string) 0%N (Some "T::AccountId"%string) [])] 3%N ["A new account was created."%string]); (Variant "KilledAccount"%string [(Field (Some "account"%string) 0%N (Some "T::AccountId"%string) [])] 4%N ["An account was reaped."%string]); (Variant "Remarked"%string [(Field (Some "sender"%string) 0%N (Some "T::AccountId"%string) []); (Field (Some "hash"%string) 12%N (Some "T::Hash"%string) [])] 5%N ["On on-chain remark happened."%string])]) ["Event for the System pallet."%string]).
Definition md_t22 : ty := (Ty ["frame_support"%string; "dispatch"%string; "DispatchInfo"%string] [] (TComposite [(Field (Some "weight"%string) 9%N (Some "Weight"%string) []); (Field (Some "class"%string) 23%N (Some "DispatchClass"%string) []); (Field (Some "pays_fee"%string) 24%N (Some "Pays"%string) [])]) []).
Definition md_t23 : ty := (Ty ["frame_support"%string; "dispatch"%string; "DispatchClass"%string] [] (TVariant [(Variant "Normal"%string [] 0%N []); (Variant "Operational"%string [] 1%N []); (Variant "Mandatory"%string [] 2%N [])]) []).
Definition md_t24 : ty := (Ty ["frame_support"%string; "dispatch"%string; "Pays"%string] [] (TVariant [(Variant "Yes"%string [] 0%N []); (Variant "No"%string [] 1%N [])]) []).
Definition md_t25 : ty := (Ty ["sp_runtime"%string; "DispatchError"%string] [] (TVariant [(Variant "Other"%string [] 0%N []); (Variant "CannotLookup"%string [] 1%N []); (Variant "BadOrigin"%string [] 2%N []); (Variant "Module"%string [(Field None 26%N (Some "ModuleError"%string) [])] 3%N []); (Variant "ConsumerRemaining"%string [] 4%N []); (Variant "NoProviders"%string [] 5%N []); (Variant "TooManyConsumers"%string [] 6%N []); (Variant "Token"%string [(Field None 27%N (Some "TokenError"%string) [])] 7%N []); (Variant "Arithmetic"%string [(Field None 28%N (Some "ArithmeticError"%string) [])] 8%N []); (Variant "Transactional"%string [(Field None 29%N (Some "TransactionalError"%string) [])] 9%N []); (Variant "Exhausted"%string [] 10%N []); (Variant "Corruption"%string [] 11%N []); (Variant "Unavailable"%string [] 12%N []); (Variant "RootNotAllowed"%string [] 13%N [])]) []).
Definition md_t26 : ty := (Ty ["sp_runtime"%string; "ModuleError"%string] [] (TComposite [(Field (Some "index"%string) 2%N (Some "u8"%string) []); (Field (Some "error"%string) 17%N (Some "[u8; MAX_MODULE_ERROR_ENCODED_SIZE]"%string) [])]) []).
Definition md_t27 : ty := (Ty ["sp_runtime"%string; "TokenError"%string] [] (TVariant [(Variant "FundsUnavailable"%string [] 0%N []); (Variant "OnlyProvider"%string [] 1%N []); (Variant "BelowMinimum"%string [] 2%N []); (Variant "CannotCreate"%string [] 3%N []); (Variant "UnknownAsset"%string [] 4%N []); (Variant "Frozen"%string [] 5%N []); (Variant "Unsupported"%string [] 6%N []); (Variant "CannotCreateHold"%string [] 7%N []); (Variant "NotExpendable"%string [] 8%N []); (Variant "Blocked"%string [] 9%N [])]) []).
Definition md_t28 : ty := (Ty ["sp_arithmetic"%string; "ArithmeticError"%string] [] (TVariant [(Variant "Underflow"%string [] 0%N []); (Variant "Overflow"%string [] 1%N []); (Variant "DivisionByZero"%string [] 2%N [])]) []).
Definition md_t29 : ty := (Ty ["sp_runtime"%string; "TransactionalError"%string] [] (TVariant [(Variant "LimitReached"%string [] 0%N []); (Variant "NoLayer"%string [] 1%N [])]) []).
Definition md_t30 : ty := (Ty ["pallet_utility"%string; "pallet"%string; "Event"%string] [] (TVariant [(Variant "BatchInterrupted"%string [(Field (Some "index"%string) 4%N (Some "u32"%string) []); (Field (Some "error"%string) 25%N (Some "DispatchError"%string) [])] 0%N ["Batch of dispatches did not complete fully. Index of first failing dispatch given, as"%string; "well as the error."%string]); (Variant "BatchCompleted"%string [] 1%N ["Batch of dispatches completed fully with no error."%string]); (Variant "BatchCompletedWithErrors"%string [] 2%N ["Batch of dispatches completed but has errors."%string]); (Variant "ItemCompleted"%string [] 3%N ["A single item within a Batch of dispatches has completed with no error."%string]); (Variant "ItemFailed"%string [(Field (Some "error"%string) 25%N (Some "DispatchError"%string) [])] 4%N ["A single item within a Batch of dispatches has completed with error."%string]); (Variant "DispatchedAs"%string [(Field (Some "result"%string) 31%N (Some "DispatchResult"%string) [])] 5%N ["A call was dispatched."%string])]) ["
			The [event](https://docs.substrate.io/main-docs/build/events-errors/) emitted
			by this pallet.
			"%string]).
Definition md_t31 : ty := (Ty ["Result"%string] [("T"%string,(Some 32%N)); ("E"%string,(Some 25%N))] (TVariant [(Variant "Ok"%string [(Field None 32%N None [])] 0%N []); (Variant "Err"%string [(Field None 25%N None [])] 1%N [])]) []).
Definition md_t32 : ty := (Ty [] [] (TTuple []) []).
Definition md_t33 : ty := (Ty ["pallet_identity"%string; "pallet"%string; "Event"%string] [("T"%string,None)] (TVariant [(Variant "IdentitySet"%string [(Field (Some "who"%string) 0%N (Some "T::AccountId"%string) [])] 0%N ["A name was set or reset (which will remove all judgements)."%string]); (Variant "IdentityCleared"%string [(Field (Some "who"%string) 0%N (Some "T::AccountId"%string) []); (Field (Some "deposit"%string) 6%N (Some "BalanceOf<T>"%string) [])] 1%N ["A name was cleared, and the given balance returned."%string]); (Variant "IdentityKilled"%string [(Field (Some "who"%string) 0%N (Some "T::AccountId"%string) []); (Field (Some "deposit"%string) 6%N (Some "BalanceOf<T>"%string) [])] 2%N ["A name was removed and the given balance slashed."%string]); (Variant "JudgementRequested"%string [(Field (Some "who"%string) 0%N (Some "T::AccountId"%string) []); (Field (Some "registrar_index"%string) 4%N (Some "RegistrarIndex"%string) [])] 3%N ["A judgement was asked from a registrar."%string]); (Variant "JudgementUnrequested"%string [(Field (Some "who"%string) 0%N (Some "T::AccountId"%string) []); (Field (Some "registrar_index"%string) 4%N (Some "RegistrarIndex"%string) [])] 4%N ["A judgement request was retracted."%string]); (Variant "JudgementGiven"%string [(Field (Some "target"%string) 0%N (Some "T::AccountId"%string) []); (Field (Some "registrar_index"%string) 4%N (Some "RegistrarIndex"%string) [])] 5%N ["A judgement was given by a registrar."%string]); (Variant "RegistrarAdded"%string [(Field (Some "registrar_index"%string) 4%N (Some "RegistrarIndex"%string) [])] 6%N ["A registrar was added."%string]); (Variant "SubIdentityAdded"%string [(Field (Some "sub"%string) 0%N (Some "T::AccountId"%string) []); (Field (Some "main"%string) 0%N (Some "T::AccountId"%string) []); (Field (Some "deposit"%string) 6%N (Some "BalanceOf<T>"%string) [])] 7%N ["A sub-identity was added to an identity and the deposit paid."%string]); (Variant "SubIdentityRemoved"%string [(Field (Some "sub"%string) 0%N (Some "T::AccountId"%string) []); (Field (Some "main"%string) 0%N (Some "T::AccountId"%string) []); (Field (Some "deposit"%string) 6%N (Some "BalanceOf<T>"%string) [])] 8%N ["A sub-identity was removed from an identity and the deposit freed."%string]); (Variant "SubIdentityRevoked"%string [(Field (Some "sub"%string) 0%N (Some "T::AccountId"%string) []); (Field (Some "main"%string) 0%N (Some "T::AccountId"%string) []); (Field (Some "deposit"%string) 6%N (Some "BalanceOf<T>"%string) [])] 9%N ["A sub-identity was cleared, and the given deposit repatriated from the"%string; "main identity account to the sub-identity account."%string])]) ["
			The [event](https://docs.substrate.io/main-docs/build/events-errors/) emitted
			by this pallet.
			"%string]).
Definition md_t34 : ty := (Ty ["pallet_multisig"%string; "pallet"%string; "Event"%string] [("T"%string,None)] (TVariant [(Variant "NewMultisig"%string [(Field (Some "approving"%string) 0%N (Some "T::AccountId"%string) []); (Field (Some "multisig"%string) 0%N (Some "T::AccountId"%string) []); (Field (Some "call_hash"%string) 1%N (Some "CallHash"%string) [])] 0%N ["A new multisig operation has begun."%string]); (Variant "MultisigApproval"%string [(Field (Some "approving"%string) 0%N (Some "T::AccountId"%string) []); (Field (Some "timepoint"%string) 35%N (Some "Timepoint<T::BlockNumber>"%string) []); (Field (Some "multisig"%string) 0%N (Some "T::AccountId"%string) []); (Field (Some "call_hash"%string) 1%N (Some "CallHash"%string) [])] 1%N ["A multisig operation has been approved by someone."%string]); (Variant "MultisigExecuted"%string [(Field (Some "approving"%string) 0%N (Some "T::AccountId"%string) []); (Field (Some "timepoint"%string) 35%N (Some "Timepoint<T::BlockNumber>"%string) []); (Field (Some "multisig"%string) 0%N (Some "T::AccountId"%string) []); (Field (Some "call_hash"%string) 1%N (Some "CallHash"%string) []); (Field (Some "result"%string) 31%N (Some "DispatchResult"%string) [])] 2%N ["A multisig operation has been executed."%string]); (Variant "MultisigCancelled"%string [(Field (Some "cancelling"%string) 0%N (Some "T::AccountId"%string) []); (Field (Some "timepoint"%string) 35%N (Some "Timepoint<T::BlockNumber>"%string) []); (Field (Some "multisig"%string) 0%N (Some "T::AccountId"%string) []); (Field (Some "call_hash"%string) 1%N (Some "CallHash"%string) [])] 3%N ["A multisig operation has been cancelled."%string])]) ["
			The [event](https://docs.substrate.io/main-docs/build/events-errors/) emitted
			by this pallet.
			"%string]).
Definition md_t35 : ty := (Ty ["pallet_multisig"%string; "Timepoint"%string] [("BlockNumber"%string,(Some 4%N))] (TComposite [(Field (Some "height"%string) 4%N (Some "BlockNumber"%string) []); (Field (Some "index"%string) 4%N (Some "u32"%string) [])]) []).
Definition md_t36 : ty := (Ty ["pallet_proxy"%string; "pallet"%string; "Event"%string] [("T"%string,None)] (TVariant [(Variant "ProxyExecuted"%string [(Field (Some "result"%string) 31%N (Some "DispatchResult"%string) [])] 0%N ["A proxy was executed correctly, with the given."%string]); (Variant "PureCreated"%string [(Field (Some "pure"%string) 0%N (Some "T::AccountId"%string) []); (Field (Some "who"%string) 0%N (Some "T::AccountId"%string) []); (Field (Some "proxy_type"%string) 37%N (Some "T::ProxyType"%string) []); (Field (Some "disambiguation_index"%string) 38%N (Some "u16"%string) [])] 1%N ["A pure account has been created by new proxy with given"%string; "disambiguation index and proxy type."%string]); (Variant "Announced"%string [(Field (Some "real"%string) 0%N (Some "T::AccountId"%string) []); (Field (Some "proxy"%string) 0%N (Some "T::AccountId"%string) []); (Field (Some "call_hash"%string) 12%N (Some "CallHashOf<T>"%string) [])] 2%N ["An announcement was placed to make a call in the future."%string]); (Variant "ProxyAdded"%string [(Field (Some "delegator"%string) 0%N (Some "T::AccountId"%string) []); (Field (Some "delegatee"%string) 0%N (Some "T::AccountId"%string) []); (Field (Some "proxy_type"%string) 37%N (Some "T::ProxyType"%string) []); (Field (Some "delay"%string) 4%N (Some "T::BlockNumber"%string) [])] 3%N ["A proxy was added."%string]); (Variant "ProxyRemoved"%string [(Field (Some "delegator"%string) 0%N (Some "T::AccountId"%string) []); (Field (Some "delegatee"%string) 0%N (Some "T::AccountId"%string) []); (Field (Some "proxy_type"%string) 37%N (Some "T::ProxyType"%string) []); (Field (Some "delay"%string) 4%N (Some "T::BlockNumber"%string) [])] 4%N ["A proxy was removed."%string])]) ["
			The [event](https://docs.substrate.io/main-docs/build/events-errors/) emitted
			by this pallet.
			"%string]).
Definition md_t37 : ty := (Ty ["astar_runtime"%string; "ProxyType"%string] [] (TVariant [(Variant "Any"%string [] 0%N []); (Variant "NonTransfer"%string [] 1%N []); (Variant "Balances"%string [] 2%N []); (Variant "Assets"%string [] 3%N []); (Variant "IdentityJudgement"%string [] 4%N []); (Variant "CancelProxy"%string [] 5%N []); (Variant "DappsStaking"%string [] 6%N []); (Variant "StakerRewardClaim"%string [] 7%N [])]) []).
Definition md_t38 : ty := (Ty [] [] (TPrimitive (PrU U16)) []).
Definition md_t39 : ty := (Ty ["cumulus_pallet_parachain_system"%string; "pallet"%string; "Event"%string] [("T"%string,None)] (TVariant [(Variant "ValidationFunctionStored"%string [] 0%N ["The validation function has been scheduled to apply."%string]); (Variant "ValidationFunctionApplied"%string [(Field (Some "relay_chain_block_num"%string) 4%N (Some "RelayChainBlockNumber"%string) [])] 1%N ["The validation function was applied as of the contained relay chain block number."%string]); (Variant "ValidationFunctionDiscarded"%string [] 2%N ["The relay-chain aborted the upgrade process."%string]); (Variant "UpgradeAuthorized"%string [(Field (Some "code_hash"%string) 12%N (Some "T::Hash"%string) [])] 3%N ["An upgrade has been authorized."%string]); (Variant "DownwardMessagesReceived"%string [(Field (Some "count"%string) 4%N (Some "u32"%string) [])] 4%N ["Some downward messages have been received and will be processed."%string]); (Variant "DownwardMessagesProcessed"%string [(Field (Some "weight_used"%string) 9%N (Some "Weight"%string) []); (Field (Some "dmq_head"%string) 12%N (Some "relay_chain::Hash"%string) [])] 5%N ["Downward messages were processed using the given weight."%string]); (Variant "UpwardMessageSent"%string [(Field (Some "message_hash"%string) 40%N (Some "Option<XcmHash>"%string) [])] 6%N ["An upward message was sent to the relay chain."%string])]) ["
			The [event](https://docs.substrate.io/main-docs/build/events-errors/) emitted
			by this pallet.
			"%string]).
Definition md_t40 : ty := (Ty ["Option"%string] [("T"%string,(Some 1%N))] (TVariant [(Variant "None"%string [] 0%N []); (Variant "Some"%string [(Field None 1%N None [])] 1%N [])]) []).
Definition md_t41 : ty := (Ty ["pallet_transaction_payment"%string; "pallet"%string; "Event"%string] [("T"%string,None)] (TVariant [(Variant "TransactionFeePaid"%string [(Field (Some "who"%string) 0%N (Some "T::AccountId"%string) []); (Field (Some "actual_fee"%string) 6%N (Some "BalanceOf<T>"%string) []); (Field (Some "tip"%string) 6%N (Some "BalanceOf<T>"%string) [])] 0%N ["A transaction fee `actual_fee`, of which `tip` was added to the minimum inclusion fee,"%string; "has been paid by `who`."%string])]) ["
			The [event](https://docs.substrate.io/main-docs/build/events-errors/) emitted
			by this pallet.
			"%string]).
Definition md_t42 : ty := (Ty ["pallet_balances"%string; "pallet"%string; "Event"%string] [("T"%string,None); ("I"%string,None)] (TVariant [(Variant "Endowed"%string [(Field (Some "account"%string) 0%N (Some "T::AccountId"%string) []); (Field (Some "free_balance"%string) 6%N (Some "T::Balance"%string) [])] 0%N ["An account was created with some free balance."%string]); (Variant "DustLost"%string [(Field (Some "account"%string) 0%N (Some "T::AccountId"%string) []); (Field (Some "amount"%string) 6%N (Some "T::Balance"%string) [])] 1%N ["An account was removed whose balance was non-zero but below ExistentialDeposit,"%string; "resulting in an outright loss."%string]); (Variant "Transfer"%string [(Field (Some "from"%string) 0%N (Some "T::AccountId"%string) []); (Field (Some "to"%string) 0%N (Some "T::AccountId"%string) []); (Field (Some "amount"%string) 6%N (Some "T::Balance"%string) [])] 2%N ["Transfer succeeded."%string]); (Variant "BalanceSet"%string [(Field (Some "who"%string) 0%N (Some "T::AccountId"%string) []); (Field (Some "free"%string) 6%N (Some "T::Balance"%string) [])] 3%N ["A balance was set by root."%string]); (Variant "Reserved"%string [(Field (Some "who"%string) 0%N (Some "T::AccountId"%string) []); (Field (Some "amount"%string) 6%N (Some "T::Balance"%string) [])] 4%N ["Some balance was reserved (moved from free to reserved)."%string]); (Variant "Unreserved"%string [(Field (Some "who"%string) 0%N (Some "T::AccountId"%string) []); (Field (Some "amount"%string) 6%N (Some "T::Balance"%string) [])] 5%N ["Some balance was unreserved (moved from reserved to free)."%string]); (Variant "ReserveRepatriated"%string [(Field (Some "from"%string) 0%N (Some "T::AccountId"%string) []); (Field (Some "to"%string) 0%N (Some "T::AccountId"%string) []); (Field (Some "amount"%string) 6%N (Some "T::Balance"%string) []); (Field (Some "destination_status"%string) 43%N (Some "Status"%string) [])] 6%N ["Some balance was moved from the reserve of the first account to the second account."%string; "Final argument indicates the destination balance type."%string]); (Variant "Deposit"%string [(Field (Some "who"%string) 0%N (Some "T::AccountId"%string) []); (Field (Some "amount"%string) 6%N (Some "T::Balance"%string) [])] 7%N ["Some amount was deposited (e.g. for transaction fees)."%string]); (Variant "Withdraw"%string [(Field (Some "who"%string) 0%N (Some "T::AccountId"%string) []); (Field (Some "amount"%string) 6%N (Some "T::Balance"%string) [])] 8%N ["Some amount was withdrawn from the account (e.g. for transaction fees)."%string]); (Variant "Slashed"%string [(Field (Some "who"%string) 0%N (Some "T::AccountId"%string) []); (Field (Some "amount"%string) 6%N (Some "T::Balance"%string) [])] 9%N ["Some amount was removed from the account (e.g. for misbehavior)."%string]); (Variant "Minted"%string [(Field (Some "who"%string) 0%N (Some "T::AccountId"%string) []); (Field (Some "amount"%string) 6%N (Some "T::Balance"%string) [])] 10%N ["Some amount was minted into an account."%string]); (Variant "Burned"%string [(Field (Some "who"%string) 0%N (Some "T::AccountId"%string) []); (Field (Some "amount"%string) 6%N (Some "T::Balance"%string) [])] 11%N ["Some amount was burned from an account."%string]); (Variant "Suspended"%string [(Field (Some "who"%string) 0%N (Some "T::AccountId"%string) []); (Field (Some "amount"%string) 6%N (Some "T::Balance"%string) [])] 12%N ["Some amount was suspended from an account (it can be restored later)."%string]); (Variant "Restored"%string [(Field (Some "who"%string) 0%N (Some "T::AccountId"%string) []); (Field (Some "amount"%string) 6%N (Some "T::Balance"%string) [])] 13%N ["Some amount was restored into an account."%string]); (Variant "Upgraded"%string [(Field (Some "who"%string) 0%N (Some "T::AccountId"%string) [])] 14%N ["An account was upgraded."%string]); (Variant "Issued"%string [(Field (Some "amount"%string) 6%N (Some "T::Balance"%string) [])] 15%N ["Total issuance was increased by `amount`, creating a credit to be balanced."%string]); (Variant "Rescinded"%string [(Field (Some "amount"%string) 6%N (Some "T::Balance"%string) [])] 16%N ["Total issuance was decreased by `amount`, creating a debt to be balanced."%string]); (Variant "Locked"%string [(Field (Some "who"%string) 0%N (Some "T::AccountId"%string) []); (Field (Some "amount"%string) 6%N (Some "T::Balance"%string) [])] 17%N ["Some balance was locked."%string]); (Variant "Unlocked"%string [(Field (Some "who"%string) 0%N (Some "T::AccountId"%string) []); (Field (Some "amount"%string) 6%N (Some "T::Balance"%string) [])] 18%N ["Some balance was unlocked."%string]); (Variant "Frozen"%string [(Field (Some "who"%string) 0%N (Some "T::AccountId"%string) []); (Field (Some "amount"%string) 6%N (Some "T::Balance"%string) [])] 19%N ["Some balance was frozen."%string]); (Variant "Thawed"%string [(Field (Some "who"%string) 0%N (Some "T::AccountId"%string) []); (Field (Some "amount"%string) 6%N (Some "T::Balance"%string) [])] 20%N ["Some balance was thawed."%string])]) ["
			The [event](https://docs.substrate.io/main-docs/build/events-errors/) emitted
			by this pallet.
			"%string]).
Definition md_t43 : ty := (Ty ["frame_support"%string; "traits"%string; "tokens"%string; "misc"%string; "BalanceStatus"%string] [] (TVariant [(Variant "Free"%string [] 0%N []); (Variant "Reserved"%string [] 1%N [])]) []).
Definition md_t44 : ty := (Ty ["pallet_vesting"%string; "pallet"%string; "Event"%string] [("T"%string,None)] (TVariant [(Variant "VestingUpdated"%string [(Field (Some "account"%string) 0%N (Some "T::AccountId"%string) []); (Field (Some "unvested"%string) 6%N (Some "BalanceOf<T>"%string) [])] 0%N ["The amount vested has been updated. This could indicate a change in funds available."%string; "The balance given is the amount which is left unvested (and thus locked)."%string]); (Variant "VestingCompleted"%string [(Field (Some "account"%string) 0%N (Some "T::AccountId"%string) [])] 1%N ["An \[account\] has become fully vested."%string])]) ["
			The [event](https://docs.substrate.io/main-docs/build/events-errors/) emitted
			by this pallet.
			"%string]).
Definition md_t45 : ty := (Ty ["pallet_dapps_staking"%string; "pallet"%string; "pallet"%string; "Event"%string] [("T"%string,None)] (TVariant [(Variant "BondAndStake"%string [(Field None 0%N (Some "T::AccountId"%string) []); (Field None 46%N (Some "T::SmartContract"%string) []); (Field None 6%N (Some "Balance"%string) [])] 0%N ["Account has bonded and staked funds on a smart contract."%string]); (Variant "UnbondAndUnstake"%string [(Field None 0%N (Some "T::AccountId"%string) []); (Field None 46%N (Some "T::SmartContract"%string) []); (Field None 6%N (Some "Balance"%string) [])] 1%N ["Account has unbonded & unstaked some funds. Unbonding process begins."%string]); (Variant "WithdrawFromUnregistered"%string [(Field None 0%N (Some "T::AccountId"%string) []); (Field None 46%N (Some "T::SmartContract"%string) []); (Field None 6%N (Some "Balance"%string) [])] 2%N ["Account has fully withdrawn all staked amount from an unregistered contract."%string]); (Variant "Withdrawn"%string [(Field None 0%N (Some "T::AccountId"%string) []); (Field None 6%N (Some "Balance"%string) [])] 3%N ["Account has withdrawn unbonded funds."%string]); (Variant "NewContract"%string [(Field None 0%N (Some "T::AccountId"%string) []); (Field None 46%N (Some "T::SmartContract"%string) [])] 4%N ["New contract added for staking."%string]); (Variant "ContractRemoved"%string [(Field None 0%N (Some "T::AccountId"%string) []); (Field None 46%N (Some "T::SmartContract"%string) [])] 5%N ["Contract removed from dapps staking."%string]); (Variant "NewDappStakingEra"%string [(Field None 4%N (Some "EraIndex"%string) [])] 6%N ["New dapps staking era. Distribute era rewards to contracts."%string]); (Variant "Reward"%string [(Field None 0%N (Some "T::AccountId"%string) []); (Field None 46%N (Some "T::SmartContract"%string) []); (Field None 4%N (Some "EraIndex"%string) []); (Field None 6%N (Some "Balance"%string) [])] 7%N ["Reward paid to staker or developer."%string]); (Variant "MaintenanceMode"%string [(Field None 49%N (Some "bool"%string) [])] 8%N ["Maintenance mode has been enabled or disabled"%string]); (Variant "RewardDestination"%string [(Field None 0%N (Some "T::AccountId"%string) []); (Field None 50%N (Some "RewardDestination"%string) [])] 9%N ["Reward handling modified"%string]); (Variant "NominationTransfer"%string [(Field None 0%N (Some "T::AccountId"%string) []); (Field None 46%N (Some "T::SmartContract"%string) []); (Field None 6%N (Some "Balance"%string) []); (Field None 46%N (Some "T::SmartContract"%string) [])] 10%N ["Nomination part has been transfered from one contract to another."%string; ""%string; "\(staker account, origin smart contract, amount, target smart contract\)"%string]); (Variant "StaleRewardBurned"%string [(Field None 0%N (Some "T::AccountId"%string) []); (Field None 46%N (Some "T::SmartContract"%string) []); (Field None 4%N (Some "EraIndex"%string) []); (Field None 6%N (Some "Balance"%string) [])] 11%N ["Stale, unclaimed reward from an unregistered contract has been burned."%string; ""%string; "\(developer account, smart contract, era, amount burned\)"%string])]) ["
			The [event](https://docs.substrate.io/main-docs/build/events-errors/) emitted
			by this pallet.
			"%string]).
Definition md_t46 : ty := (Ty ["astar_runtime"%string; "SmartContract"%string] [("AccountId"%string,(Some 0%N))] (TVariant [(Variant "Evm"%string [(Field None 47%N (Some "sp_core::H160"%string) [])] 0%N []); (Variant "Wasm"%string [(Field None 0%N (Some "AccountId"%string) [])] 1%N [])]) []).
Definition md_t47 : ty := (Ty ["primitive_types"%string; "H160"%string] [] (TComposite [(Field None 48%N (Some "[u8; 20]"%string) [])]) []).
Definition md_t48 : ty := (Ty [] [] (TArray 20%N 2%N) []).
Definition md_t49 : ty := (Ty [] [] (TPrimitive PrBool) []).
Definition md_t50 : ty := (Ty ["pallet_dapps_staking"%string; "RewardDestination"%string] [] (TVariant [(Variant "FreeBalance"%string [] 0%N []); (Variant "StakeBalance"%string [] 1%N [])]) []).
Definition md_t51 : ty := (Ty ["pallet_block_reward"%string; "pallet"%string; "Event"%string] [("T"%string,None)] (TVariant [(Variant "DistributionConfigurationChanged"%string [(Field None 52%N (Some "RewardDistributionConfig"%string) [])] 0%N ["Distribution configuration has been updated."%string])]) ["
			The [event](https://docs.substrate.io/main-docs/build/events-errors/) emitted
			by this pallet.
			"%string]).
Definition md_t52 : ty := (Ty ["pallet_block_reward"%string; "RewardDistributionConfig"%string] [] (TComposite [(Field (Some "base_treasury_percent"%string) 53%N (Some "Perbill"%string) []); (Field (Some "base_staker_percent"%string) 53%N (Some "Perbill"%string) []); (Field (Some "dapps_percent"%string) 53%N (Some "Perbill"%string) []); (Field (Some "collators_percent"%string) 53%N (Some "Perbill"%string) []); (Field (Some "adjustable_percent"%string) 53%N (Some "Perbill"%string) []); (Field (Some "ideal_dapps_staking_tvl"%string) 53%N (Some "Perbill"%string) [])]) []).
Definition md_t53 : ty := (Ty [] [] (TCompact 54%N) []).
Definition md_t54 : ty := (Ty ["sp_arithmetic"%string; "per_things"%string; "Perbill"%string] [] (TComposite [(Field None 4%N (Some "u32"%string) [])]) []).
Definition md_t55 : ty := (Ty ["pallet_assets"%string; "pallet"%string; "Event"%string] [("T"%string,None); ("I"%string,None)] (TVariant [(Variant "Created"%string [(Field (Some "asset_id"%string) 6%N (Some "T::AssetId"%string) []); (Field (Some "creator"%string) 0%N (Some "T::AccountId"%string) []); (Field (Some "owner"%string) 0%N (Some "T::AccountId"%string) [])] 0%N ["Some asset class was created."%string]); (Variant "Issued"%string [(Field (Some "asset_id"%string) 6%N (Some "T::AssetId"%string) []); (Field (Some "owner"%string) 0%N (Some "T::AccountId"%string) []); (Field (Some "amount"%string) 6%N (Some "T::Balance"%string) [])] 1%N ["Some assets were issued."%string]); (Variant "Transferred"%string [(Field (Some "asset_id"%string) 6%N (Some "T::AssetId"%string) []); (Field (Some "from"%string) 0%N (Some "T::AccountId"%string) []); (Field (Some "to"%string) 0%N (Some "T::AccountId"%string) []); (Field (Some "amount"%string) 6%N (Some "T::Balance"%string) [])] 2%N ["Some assets were transferred."%string]); (Variant "Burned"%string [(Field (Some "asset_id"%string) 6%N (Some "T::AssetId"%string) []); (Field (Some "owner"%string) 0%N (Some "T::AccountId"%string) []); (Field (Some "balance"%string) 6%N (Some "T::Balance"%string) [])] 3%N ["Some assets were destroyed."%string]); (Variant "TeamChanged"%string [(Field (Some "asset_id"%string) 6%N (Some "T::AssetId"%string) []); (Field (Some "issuer"%string) 0%N (Some "T::AccountId"%string) []); (Field (Some "admin"%string) 0%N (Some "T::AccountId"%string) []); (Field (Some "freezer"%string) 0%N (Some "T::AccountId"%string) [])] 4%N ["The management team changed."%string]); (Variant "OwnerChanged"%string [(Field (Some "asset_id"%string) 6%N (Some "T::AssetId"%string) []); (Field (Some "owner"%string) 0%N (Some "T::AccountId"%string) [])] 5%N ["The owner changed."%string]); (Variant "Frozen"%string [(Field (Some "asset_id"%string) 6%N (Some "T::AssetId"%string) []); (Field (Some "who"%string) 0%N (Some "T::AccountId"%string) [])] 6%N ["Some account `who` was frozen."%string]); (Variant "Thawed"%string [(Field (Some "asset_id"%string) 6%N (Some "T::AssetId"%string) []); (Field (Some "who"%string) 0%N (Some "T::AccountId"%string) [])] 7%N ["Some account `who` was thawed."%string]); (Variant "AssetFrozen"%string [(Field (Some "asset_id"%string) 6%N (Some "T::AssetId"%string) [])] 8%N ["Some asset `asset_id` was frozen."%string]); (Variant "AssetThawed"%string [(Field (Some "asset_id"%string) 6%N (Some "T::AssetId"%string) [])] 9%N ["Some asset `asset_id` was thawed."%string]); (Variant "AccountsDestroyed"%string [(Field (Some "asset_id"%string) 6%N (Some "T::AssetId"%string) []); (Field (Some "accounts_destroyed"%string) 4%N (Some "u32"%string) []); (Field (Some "accounts_remaining"%string) 4%N (Some "u32"%string) [])] 10%N ["Accounts were destroyed for given asset."%string]); (Variant "ApprovalsDestroyed"%string [(Field (Some "asset_id"%string) 6%N (Some "T::AssetId"%string) []); (Field (Some "approvals_destroyed"%string) 4%N (Some "u32"%string) []); (Field (Some "approvals_remaining"%string) 4%N (Some "u32"%string) [])] 11%N ["Approvals were destroyed for given asset."%string]); (Variant "DestructionStarted"%string [(Field (Some "asset_id"%string) 6%N (Some "T::AssetId"%string) [])] 12%N ["An asset class is in the process of being destroyed."%string]); (Variant "Destroyed"%string [(Field (Some "asset_id"%string) 6%N (Some "T::AssetId"%string) [])] 13%N ["An asset class was destroyed."%string]); (Variant "ForceCreated"%string [(Field (Some "asset_id"%string) 6%N (Some "T::AssetId"%string) []); (Field (Some "owner"%string) 0%N (Some "T::AccountId"%string) [])] 14%N ["Some asset class was force-created."%string]); (Variant "MetadataSet"%string [(Field (Some "asset_id"%string) 6%N (Some "T::AssetId"%string) []); (Field (Some "name"%string) 13%N (Some "Vec<u8>"%string) []); (Field (Some "symbol"%string) 13%N (Some "Vec<u8>"%string) []); (Field (Some "decimals"%string) 2%N (Some "u8"%string) []); (Field (Some "is_frozen"%string) 49%N (Some "bool"%string) [])] 15%N ["New metadata has been set for an asset."%string]); (Variant "MetadataCleared"%string [(Field (Some "asset_id"%string) 6%N (Some "T::AssetId"%string) [])] 16%N ["Metadata has been cleared for an asset."%string]); (Variant "ApprovedTransfer"%string [(Field (Some "asset_id"%string) 6%N (Some "T::AssetId"%string) []); (Field (Some "source"%string) 0%N (Some "T::AccountId"%string) []); (Field (Some "delegate"%string) 0%N (Some "T::AccountId"%string) []); (Field (Some "amount"%string) 6%N (Some "T::Balance"%string) [])] 17%N ["(Additional) funds have been approved for transfer to a destination account."%string]); (Variant "ApprovalCancelled"%string [(Field (Some "asset_id"%string) 6%N (Some "T::AssetId"%string) []); (Field (Some "owner"%string) 0%N (Some "T::AccountId"%string) []); (Field (Some "delegate"%string) 0%N (Some "T::AccountId"%string) [])] 18%N ["An approval for account `delegate` was cancelled by `owner`."%string]); (Variant "TransferredApproved"%string [(Field (Some "asset_id"%string) 6%N (Some "T::AssetId"%string) []); (Field (Some "owner"%string) 0%N (Some "T::AccountId"%string) []); (Field (Some "delegate"%string) 0%N (Some "T::AccountId"%string) []); (Field (Some "destination"%string) 0%N (Some "T::AccountId"%string) []); (Field (Some "amount"%string) 6%N (Some "T::Balance"%string) [])] 19%N ["An `amount` was transferred in its entirety from `owner` to `destination` by"%string; "the approved `delegate`."%string]); (Variant "AssetStatusChanged"%string [(Field (Some "asset_id"%string) 6%N (Some "T::AssetId"%string) [])] 20%N ["An asset has had its attributes changed by the `Force` origin."%string]); (Variant "AssetMinBalanceChanged"%string [(Field (Some "asset_id"%string) 6%N (Some "T::AssetId"%string) []); (Field (Some "new_min_balance"%string) 6%N (Some "T::Balance"%string) [])] 21%N ["The min_balance of an asset has been updated by the asset owner."%string]); (Variant "Touched"%string [(Field (Some "asset_id"%string) 6%N (Some "T::AssetId"%string) []); (Field (Some "who"%string) 0%N (Some "T::AccountId"%string) []); (Field (Some "depositor"%string) 0%N (Some "T::AccountId"%string) [])] 22%N ["Some account `who` was created with a deposit from `depositor`."%string]); (Variant "Blocked"%string [(Field (Some "asset_id"%string) 6%N (Some "T::AssetId"%string) []); (Field (Some "who"%string) 0%N (Some "T::AccountId"%string) [])] 23%N ["Some account `who` was blocked."%string])]) ["
			The [event](https://docs.substrate.io/main-docs/build/events-errors/) emitted
			by this pallet.
			"%string]).
Definition md_t56 : ty := (Ty ["pallet_collator_selection"%string; "pallet"%string; "Event"%string] [("T"%string,None)] (TVariant [(Variant "NewInvulnerables"%string [(Field None 57%N (Some "Vec<T::AccountId>"%string) [])] 0%N []); (Variant "NewDesiredCandidates"%string [(Field None 4%N (Some "u32"%string) [])] 1%N []); (Variant "NewCandidacyBond"%string [(Field None 6%N (Some "BalanceOf<T>"%string) [])] 2%N []); (Variant "CandidateAdded"%string [(Field None 0%N (Some "T::AccountId"%string) []); (Field None 6%N (Some "BalanceOf<T>"%string) [])] 3%N []); (Variant "CandidateRemoved"%string [(Field None 0%N (Some "T::AccountId"%string) [])] 4%N []); (Variant "CandidateSlashed"%string [(Field None 0%N (Some "T::AccountId"%string) [])] 5%N [])]) ["
			The [event](https://docs.substrate.io/main-docs/build/events-errors/) emitted
			by this pallet.
			"%string]).
Definition md_t57 : ty := (Ty [] [] (TSequence 0%N) []).
Definition md_t58 : ty := (Ty ["pallet_session"%string; "pallet"%string; "Event"%string] [] (TVariant [(Variant "NewSession"%string [(Field (Some "session_index"%string) 4%N (Some "SessionIndex"%string) [])] 0%N ["New session has happened. Note that the argument is the session index, not the"%string; "block number as the type might suggest."%string])]) ["
			The [event](https://docs.substrate.io/main-docs/build/events-errors/) emitted
			by this pallet.
			"%string]).
Definition md_t59 : ty := (Ty ["cumulus_pallet_xcmp_queue"%string; "pallet"%string; "Event"%string] [("T"%string,None)] (TVariant [(Variant "Success"%string [(Field (Some "message_hash"%string) 40%N (Some "Option<XcmHash>"%string) []); (Field (Some "weight"%string) 9%N (Some "Weight"%string) [])] 0%N ["Some XCM was executed ok."%string]); (Variant "Fail"%string [(Field (Some "message_hash"%string) 40%N (Some "Option<XcmHash>"%string) []); (Field (Some "error"%string) 60%N (Some "XcmError"%string) []); (Field (Some "weight"%string) 9%N (Some "Weight"%string) [])] 1%N ["Some XCM failed."%string]); (Variant "BadVersion"%string [(Field (Some "message_hash"%string) 40%N (Some "Option<XcmHash>"%string) [])] 2%N ["Bad XCM version used."%string]); (Variant "BadFormat"%string [(Field (Some "message_hash"%string) 40%N (Some "Option<XcmHash>"%string) [])] 3%N ["Bad XCM format used."%string]); (Variant "XcmpMessageSent"%string [(Field (Some "message_hash"%string) 40%N (Some "Option<XcmHash>"%string) [])] 4%N ["An HRMP message was sent to a sibling parachain."%string]); (Variant "OverweightEnqueued"%string [(Field (Some "sender"%string) 61%N (Some "ParaId"%string) []); (Field (Some "sent_at"%string) 4%N (Some "RelayBlockNumber"%string) []); (Field (Some "index"%string) 11%N (Some "OverweightIndex"%string) []); (Field (Some "required"%string) 9%N (Some "Weight"%string) [])] 5%N ["An XCM exceeded the individual message weight budget."%string]); (Variant "OverweightServiced"%string [(Field (Some "index"%string) 11%N (Some "OverweightIndex"%string) []); (Field (Some "used"%string) 9%N (Some "Weight"%string) [])] 6%N ["An XCM from the overweight queue was executed with the given actual weight used."%string])]) ["
			The [event](https://docs.substrate.io/main-docs/build/events-errors/) emitted
			by this pallet.
			"%string]).
Definition md_t60 : ty := (Ty ["xcm"%string; "v3"%string; "traits"%string; "Error"%string] [] (TVariant [(Variant "Overflow"%string [] 0%N []); (Variant "Unimplemented"%string [] 1%N []); (Variant "UntrustedReserveLocation"%string [] 2%N []); (Variant "UntrustedTeleportLocation"%string [] 3%N []); (Variant "LocationFull"%string [] 4%N []); (Variant "LocationNotInvertible"%string [] 5%N []); (Variant "BadOrigin"%string [] 6%N []); (Variant "InvalidLocation"%string [] 7%N []); (Variant "AssetNotFound"%string [] 8%N []); (Variant "FailedToTransactAsset"%string [] 9%N []); (Variant "NotWithdrawable"%string [] 10%N []); (Variant "LocationCannotHold"%string [] 11%N []); (Variant "ExceedsMaxMessageSize"%string [] 12%N []); (Variant "DestinationUnsupported"%string [] 13%N []); (Variant "Transport"%string [] 14%N []); (Variant "Unroutable"%string [] 15%N []); (Variant "UnknownClaim"%string [] 16%N []); (Variant "FailedToDecode"%string [] 17%N []); (Variant "MaxWeightInvalid"%string [] 18%N []); (Variant "NotHoldingFees"%string [] 19%N []); (Variant "TooExpensive"%string [] 20%N []); (Variant "Trap"%string [(Field None 11%N (Some "u64"%string) [])] 21%N []); (Variant "ExpectationFalse"%string [] 22%N []); (Variant "PalletNotFound"%string [] 23%N []); (Variant "NameMismatch"%string [] 24%N []); (Variant "VersionIncompatible"%string [] 25%N []); (Variant "HoldingWouldOverflow"%string [] 26%N []); (Variant "ExportError"%string [] 27%N []); (Variant "ReanchorFailed"%string [] 28%N []); (Variant "NoDeal"%string [] 29%N []); (Variant "FeesNotMet"%string [] 30%N []); (Variant "LockError"%string [] 31%N []); (Variant "NoPermission"%string [] 32%N []); (Variant "Unanchored"%string [] 33%N []); (Variant "NotDepositable"%string [] 34%N []); (Variant "UnhandledXcmVersion"%string [] 35%N []); (Variant "WeightLimitReached"%string [(Field None 9%N (Some "Weight"%string) [])] 36%N []); (Variant "Barrier"%string [] 37%N []); (Variant "WeightNotComputable"%string [] 38%N []); (Variant "ExceedsStackLimit"%string [] 39%N [])]) []).
Definition md_t61 : ty := (Ty ["polkadot_parachain"%string; "primitives"%string; "Id"%string] [] (TComposite [(Field None 4%N (Some "u32"%string) [])]) []).
Definition md_t62 : ty := (Ty ["pallet_xcm"%string; "pallet"%string; "Event"%string] [("T"%string,None)] (TVariant [(Variant "Attempted"%string [(Field None 63%N (Some "xcm::latest::Outcome"%string) [])] 0%N ["Execution of an XCM message was attempted."%string; ""%string; "\[ outcome \]"%string]); (Variant "Sent"%string [(Field None 64%N (Some "MultiLocation"%string) []); (Field None 64%N (Some "MultiLocation"%string) []); (Field None 73%N (Some "Xcm<()>"%string) [])] 1%N ["A XCM message was sent."%string; ""%string; "\[ origin, destination, message \]"%string]); (Variant "UnexpectedResponse"%string [(Field None 64%N (Some "MultiLocation"%string) []); (Field None 11%N (Some "QueryId"%string) [])] 2%N ["Query response received which does not match a registered query. This may be because a"%string; "matching query was never registered, it may be because it is a duplicate response, or"%string; "because the query timed out."%string; ""%string; "\[ origin location, id \]"%string]); (Variant "ResponseReady"%string [(Field None 11%N (Some "QueryId"%string) []); (Field None 84%N (Some "Response"%string) [])] 3%N ["Query response has been received and is ready for taking with `take_response`. There is"%string; "no registered notification call."%string; ""%string; "\[ id, response \]"%string]); (Variant "Notified"%string [(Field None 11%N (Some "QueryId"%string) []); (Field None 2%N (Some "u8"%string) []); (Field None 2%N (Some "u8"%string) [])] 4%N ["Query response has been received and query is removed. The registered notification has"%string; "been dispatched and executed successfully."%string; ""%string; "\[ id, pallet index, call index \]"%string]); (Variant "NotifyOverweight"%string [(Field None 11%N (Some "QueryId"%string) []); (Field None 2%N (Some "u8"%string) []); (Field None 2%N (Some "u8"%string) []); (Field None 9%N (Some "Weight"%string) []); (Field None 9%N (Some "Weight"%string) [])] 5%N ["Query response has been received and query is removed. The registered notification could"%string; "not be dispatched because the dispatch weight is greater than the maximum weight"%string; "originally budgeted by this runtime for the query result."%string; ""%string; "\[ id, pallet index, call index, actual weight, max budgeted weight \]"%string]); (Variant "NotifyDispatchError"%string [(Field None 11%N (Some "QueryId"%string) []); (Field None 2%N (Some "u8"%string) []); (Field None 2%N (Some "u8"%string) [])] 6%N ["Query response has been received and query is removed. There was a general error with"%string; "dispatching the notification call."%string; ""%string; "\[ id, pallet index, call index \]"%string]); (Variant "NotifyDecodeFailed"%string [(Field None 11%N (Some "QueryId"%string) []); (Field None 2%N (Some "u8"%string) []); (Field None 2%N (Some "u8"%string) [])] 7%N ["Query response has been received and query is removed. The dispatch was unable to be"%string; "decoded into a `Call`; this might be due to dispatch function having a signature which"%string; "is not `(origin, QueryId, Response)`."%string; ""%string; "\[ id, pallet index, call index \]"%string]); (Variant "InvalidResponder"%string [(Field None 64%N (Some "MultiLocation"%string) []); (Field None 11%N (Some "QueryId"%string) []); (Field None 93%N (Some "Option<MultiLocation>"%string) [])] 8%N ["Expected query response has been received but the origin location of the response does"%string; "not match that expected. The query remains registered for a later, valid, response to"%string; "be received and acted upon."%string; ""%string; "\[ origin location, id, expected location \]"%string]); (Variant "InvalidResponderVersion"%string [(Field None 64%N (Some "MultiLocation"%string) []); (Field None 11%N (Some "QueryId"%string) [])] 9%N ["Expected query response has been received but the expected origin location placed in"%string; "storage by this runtime previously cannot be decoded. The query remains registered."%string; ""%string; "This is unexpected (since a location placed in storage in a previously executing"%string; "runtime should be readable prior to query timeout) and dangerous since the possibly"%string; "valid response will be dropped. Manual governance intervention is probably going to be"%string; "needed."%string; ""%string; "\[ origin location, id \]"%string]); (Variant "ResponseTaken"%string [(Field None 11%N (Some "QueryId"%string) [])] 10%N ["Received query response has been read and removed."%string; ""%string; "\[ id \]"%string]); (Variant "AssetsTrapped"%string [(Field None 12%N (Some "H256"%string) []); (Field None 64%N (Some "MultiLocation"%string) []); (Field None 101%N (Some "VersionedMultiAssets"%string) [])] 11%N ["Some assets have been placed in an asset trap."%string; ""%string; "\[ hash, origin, assets \]"%string]); (Variant "VersionChangeNotified"%string [(Field None 64%N (Some "MultiLocation"%string) []); (Field None 4%N (Some "XcmVersion"%string) []); (Field None 76%N (Some "MultiAssets"%string) [])] 12%N ["An XCM version change notification message has been attempted to be sent."%string; ""%string; "The cost of sending it (borne by the chain) is included."%string; ""%string; "\[ destination, result, cost \]"%string]); (Variant "SupportedVersionChanged"%string [(Field None 64%N (Some "MultiLocation"%string) []); (Field None 4%N (Some "XcmVersion"%string) [])] 13%N ["The supported version of a location has been changed. This might be through an"%string; "automatic notification or a manual intervention."%string; ""%string; "\[ location, XCM version \]"%string]); (Variant "NotifyTargetSendFail"%string [(Field None 64%N (Some "MultiLocation"%string) []); (Field None 11%N (Some "QueryId"%string) []); (Field None 60%N (Some "XcmError"%string) [])] 14%N ["A given location which had a version change subscription was dropped owing to an error"%string; "sending the notification to it."%string; ""%string; "\[ location, query ID, error \]"%string]); (Variant "NotifyTargetMigrationFail"%string [(Field None 115%N (Some "VersionedMultiLocation"%string) []); (Field None 11%N (Some "QueryId"%string) [])] 15%N ["A given location which had a version change subscription was dropped owing to an error"%string; "migrating the location to our new XCM format."%string; ""%string; "\[ location, query ID \]"%string]); (Variant "InvalidQuerierVersion"%string [(Field None 64%N (Some "MultiLocation"%string) []); (Field None 11%N (Some "QueryId"%string) [])] 16%N ["Expected query response has been received but the expected querier location placed in"%string; "storage by this runtime previously cannot be decoded. The query remains registered."%string; ""%string; "This is unexpected (since a location placed in storage in a previously executing"%string; "runtime should be readable prior to query timeout) and dangerous since the possibly"%string; "valid response will be dropped. Manual governance intervention is probably going to be"%string; "needed."%string; ""%string; "\[ origin location, id \]"%string]); (Variant "InvalidQuerier"%string [(Field None 64%N (Some "MultiLocation"%string) []); (Field None 11%N (Some "QueryId"%string) []); (Field None 64%N (Some "MultiLocation"%string) []); (Field None 93%N (Some "Option<MultiLocation>"%string) [])] 17%N ["Expected query response has been received but the querier location of the response does"%string; "not match the expected. The query remains registered for a later, valid, response to"%string; "be received and acted upon."%string; ""%string; "\[ origin location, id, expected querier, maybe actual querier \]"%string]); (Variant "VersionNotifyStarted"%string [(Field None 64%N (Some "MultiLocation"%string) []); (Field None 76%N (Some "MultiAssets"%string) [])] 18%N ["A remote has requested XCM version change notification from us and we have honored it."%string; "A version information message is sent to them and its cost is included."%string; ""%string; "\[ destination location, cost \]"%string]); (Variant "VersionNotifyRequested"%string [(Field None 64%N (Some "MultiLocation"%string) []); (Field None 76%N (Some "MultiAssets"%string) [])] 19%N ["We have requested that a remote chain sends us XCM version change notifications."%string; ""%string; "\[ destination location, cost \]"%string]); (Variant "VersionNotifyUnrequested"%string [(Field None 64%N (Some "MultiLocation"%string) []); (Field None 76%N (Some "MultiAssets"%string) [])] 20%N ["We have requested that a remote chain stops sending us XCM version change notifications."%string; ""%string; "\[ destination location, cost \]"%string]); (Variant "FeesPaid"%string [(Field None 64%N (Some "MultiLocation"%string) []); (Field None 76%N (Some "MultiAssets"%string) [])] 21%N ["Fees were paid from a location for an operation (often for using `SendXcm`)."%string; ""%string; "\[ paying location, fees \]"%string]); (Variant "AssetsClaimed"%string [(Field None 12%N (Some "H256"%string) []); (Field None 64%N (Some "MultiLocation"%string) []); (Field None 101%N (Some "VersionedMultiAssets"%string) [])] 22%N ["Some assets have been claimed from an asset trap"%string; ""%string; "\[ hash, origin, assets \]"%string])]) ["
			The [event](https://docs.substrate.io/main-docs/build/events-errors/) emitted
			by this pallet.
			"%string]).
Definition md_t63 : ty := (Ty ["xcm"%string; "v3"%string; "traits"%string; "Outcome"%string] [] (TVariant [(Variant "Complete"%string [(Field None 9%N (Some "Weight"%string) [])] 0%N []); (Variant "Incomplete"%string [(Field None 9%N (Some "Weight"%string) []); (Field None 60%N (Some "Error"%string) [])] 1%N []); (Variant "Error"%string [(Field None 60%N (Some "Error"%string) [])] 2%N [])]) []).
Definition md_t64 : ty := (Ty ["xcm"%string; "v3"%string; "multilocation"%string; "MultiLocation"%string] [] (TComposite [(Field (Some "parents"%string) 2%N (Some "u8"%string) []); (Field (Some "interior"%string) 65%N (Some "Junctions"%string) [])]) []).
Definition md_t65 : ty := (Ty ["xcm"%string; "v3"%string; "junctions"%string; "Junctions"%string] [] (TVariant [(Variant "Here"%string [] 0%N []); (Variant "X1"%string [(Field None 66%N (Some "Junction"%string) [])] 1%N []); (Variant "X2"%string [(Field None 66%N (Some "Junction"%string) []); (Field None 66%N (Some "Junction"%string) [])] 2%N []); (Variant "X3"%string [(Field None 66%N (Some "Junction"%string) []); (Field None 66%N (Some "Junction"%string) []); (Field None 66%N (Some "Junction"%string) [])] 3%N []); (Variant "X4"%string [(Field None 66%N (Some "Junction"%string) []); (Field None 66%N (Some "Junction"%string) []); (Field None 66%N (Some "Junction"%string) []); (Field None 66%N (Some "Junction"%string) [])] 4%N []); (Variant "X5"%string [(Field None 66%N (Some "Junction"%string) []); (Field None 66%N (Some "Junction"%string) []); (Field None 66%N (Some "Junction"%string) []); (Field None 66%N (Some "Junction"%string) []); (Field None 66%N (Some "Junction"%string) [])] 5%N []); (Variant "X6"%string [(Field None 66%N (Some "Junction"%string) []); (Field None 66%N (Some "Junction"%string) []); (Field None 66%N (Some "Junction"%string) []); (Field None 66%N (Some "Junction"%string) []); (Field None 66%N (Some "Junction"%string) []); (Field None 66%N (Some "Junction"%string) [])] 6%N []); (Variant "X7"%string [(Field None 66%N (Some "Junction"%string) []); (Field None 66%N (Some "Junction"%string) []); (Field None 66%N (Some "Junction"%string) []); (Field None 66%N (Some "Junction"%string) []); (Field None 66%N (Some "Junction"%string) []); (Field None 66%N (Some "Junction"%string) []); (Field None 66%N (Some "Junction"%string) [])] 7%N []); (Variant "X8"%string [(Field None 66%N (Some "Junction"%string) []); (Field None 66%N (Some "Junction"%string) []); (Field None 66%N (Some "Junction"%string) []); (Field None 66%N (Some "Junction"%string) []); (Field None 66%N (Some "Junction"%string) []); (Field None 66%N (Some "Junction"%string) []); (Field None 66%N (Some "Junction"%string) []); (Field None 66%N (Some "Junction"%string) [])] 8%N [])]) []).
Definition md_t66 : ty := (Ty ["xcm"%string; "v3"%string; "junction"%string; "Junction"%string] [] (TVariant [(Variant "Parachain"%string [(Field None 67%N (Some "u32"%string) [])] 0%N []); (Variant "AccountId32"%string [(Field (Some "network"%string) 68%N (Some "Option<NetworkId>"%string) []); (Field (Some "id"%string) 1%N (Some "[u8; 32]"%string) [])] 1%N []); (Variant "AccountIndex64"%string [(Field (Some "network"%string) 68%N (Some "Option<NetworkId>"%string) []); (Field (Some "index"%string) 10%N (Some "u64"%string) [])] 2%N []); (Variant "AccountKey20"%string [(Field (Some "network"%string) 68%N (Some "Option<NetworkId>"%string) []); (Field (Some "key"%string) 48%N (Some "[u8; 20]"%string) [])] 3%N []); (Variant "PalletInstance"%string [(Field None 2%N (Some "u8"%string) [])] 4%N []); (Variant "GeneralIndex"%string [(Field None 70%N (Some "u128"%string) [])] 5%N []); (Variant "GeneralKey"%string [(Field (Some "length"%string) 2%N (Some "u8"%string) []); (Field (Some "data"%string) 1%N (Some "[u8; 32]"%string) [])] 6%N []); (Variant "OnlyChild"%string [] 7%N []); (Variant "Plurality"%string [(Field (Some "id"%string) 71%N (Some "BodyId"%string) []); (Field (Some "part"%string) 72%N (Some "BodyPart"%string) [])] 8%N []); (Variant "GlobalConsensus"%string [(Field None 69%N (Some "NetworkId"%string) [])] 9%N [])]) []).
Definition md_t67 : ty := (Ty [] [] (TCompact 4%N) []).
Definition md_t68 : ty := (Ty ["Option"%string] [("T"%string,(Some 69%N))] (TVariant [(Variant "None"%string [] 0%N []); (Variant "Some"%string [(Field None 69%N None [])] 1%N [])]) []).
Definition md_t69 : ty := (Ty ["xcm"%string; "v3"%string; "junction"%string; "NetworkId"%string] [] (TVariant [(Variant "ByGenesis"%string [(Field None 1%N (Some "[u8; 32]"%string) [])] 0%N []); (Variant "ByFork"%string [(Field (Some "block_number"%string) 11%N (Some "u64"%string) []); (Field (Some "block_hash"%string) 1%N (Some "[u8; 32]"%string) [])] 1%N []); (Variant "Polkadot"%string [] 2%N []); (Variant "Kusama"%string [] 3%N []); (Variant "Westend"%string [] 4%N []); (Variant "Rococo"%string [] 5%N []); (Variant "Wococo"%string [] 6%N []); (Variant "Ethereum"%string [(Field (Some "chain_id"%string) 10%N (Some "u64"%string) [])] 7%N []); (Variant "BitcoinCore"%string [] 8%N []); (Variant "BitcoinCash"%string [] 9%N [])]) []).
Definition md_t70 : ty := (Ty [] [] (TCompact 6%N) []).
Definition md_t71 : ty := (Ty ["xcm"%string; "v3"%string; "junction"%string; "BodyId"%string] [] (TVariant [(Variant "Unit"%string [] 0%N []); (Variant "Moniker"%string [(Field None 17%N (Some "[u8; 4]"%string) [])] 1%N []); (Variant "Index"%string [(Field None 67%N (Some "u32"%string) [])] 2%N []); (Variant "Executive"%string [] 3%N []); (Variant "Technical"%string [] 4%N []); (Variant "Legislative"%string [] 5%N []); (Variant "Judicial"%string [] 6%N []); (Variant "Defense"%string [] 7%N []); (Variant "Administration"%string [] 8%N []); (Variant "Treasury"%string [] 9%N [])]) []).
Definition md_t72 : ty := (Ty ["xcm"%string; "v3"%string; "junction"%string; "BodyPart"%string] [] (TVariant [(Variant "Voice"%string [] 0%N []); (Variant "Members"%string [(Field (Some "count"%string) 67%N (Some "u32"%string) [])] 1%N []); (Variant "Fraction"%string [(Field (Some "nom"%string) 67%N (Some "u32"%string) []); (Field (Some "denom"%string) 67%N (Some "u32"%string) [])] 2%N []); (Variant "AtLeastProportion"%string [(Field (Some "nom"%string) 67%N (Some "u32"%string) []); (Field (Some "denom"%string) 67%N (Some "u32"%string) [])] 3%N []); (Variant "MoreThanProportion"%string [(Field (Some "nom"%string) 67%N (Some "u32"%string) []); (Field (Some "denom"%string) 67%N (Some "u32"%string) [])] 4%N [])]) []).
Definition md_t73 : ty := (Ty ["xcm"%string; "v3"%string; "Xcm"%string] [("Call"%string,None)] (TComposite [(Field None 74%N (Some "Vec<Instruction<Call>>"%string) [])]) []).
Definition md_t74 : ty := (Ty [] [] (TSequence 75%N) []).
Definition md_t75 : ty := (Ty ["xcm"%string; "v3"%string; "Instruction"%string] [("Call"%string,None)] (TVariant [(Variant "WithdrawAsset"%string [(Field None 76%N (Some "MultiAssets"%string) [])] 0%N []); (Variant "ReserveAssetDeposited"%string [(Field None 76%N (Some "MultiAssets"%string) [])] 1%N []); (Variant "ReceiveTeleportedAsset"%string [(Field None 76%N (Some "MultiAssets"%string) [])] 2%N []); (Variant "QueryResponse"%string [(Field (Some "query_id"%string) 10%N (Some "QueryId"%string) []); (Field (Some "response"%string) 84%N (Some "Response"%string) []); (Field (Some "max_weight"%string) 9%N (Some "Weight"%string) []); (Field (Some "querier"%string) 93%N (Some "Option<MultiLocation>"%string) [])] 3%N []); (Variant "TransferAsset"%string [(Field (Some "assets"%string) 76%N (Some "MultiAssets"%string) []); (Field (Some "beneficiary"%string) 64%N (Some "MultiLocation"%string) [])] 4%N []); (Variant "TransferReserveAsset"%string [(Field (Some "assets"%string) 76%N (Some "MultiAssets"%string) []); (Field (Some "dest"%string) 64%N (Some "MultiLocation"%string) []); (Field (Some "xcm"%string) 73%N (Some "Xcm<()>"%string) [])] 5%N []); (Variant "Transact"%string [(Field (Some "origin_kind"%string) 94%N (Some "OriginKind"%string) []); (Field (Some "require_weight_at_most"%string) 9%N (Some "Weight"%string) []); (Field (Some "call"%string) 95%N (Some "DoubleEncoded<Call>"%string) [])] 6%N []); (Variant "HrmpNewChannelOpenRequest"%string [(Field (Some "sender"%string) 67%N (Some "u32"%string) []); (Field (Some "max_message_size"%string) 67%N (Some "u32"%string) []); (Field (Some "max_capacity"%string) 67%N (Some "u32"%string) [])] 7%N []); (Variant "HrmpChannelAccepted"%string [(Field (Some "recipient"%string) 67%N (Some "u32"%string) [])] 8%N []); (Variant "HrmpChannelClosing"%string [(Field (Some "initiator"%string) 67%N (Some "u32"%string) []); (Field (Some "sender"%string) 67%N (Some "u32"%string) []); (Field (Some "recipient"%string) 67%N (Some "u32"%string) [])] 9%N []); (Variant "ClearOrigin"%string [] 10%N []); (Variant "DescendOrigin"%string [(Field None 65%N (Some "InteriorMultiLocation"%string) [])] 11%N []); (Variant "ReportError"%string [(Field None 96%N (Some "QueryResponseInfo"%string) [])] 12%N []); (Variant "DepositAsset"%string [(Field (Some "assets"%string) 97%N (Some "MultiAssetFilter"%string) []); (Field (Some "beneficiary"%string) 64%N (Some "MultiLocation"%string) [])] 13%N []); (Variant "DepositReserveAsset"%string [(Field (Some "assets"%string) 97%N (Some "MultiAssetFilter"%string) []); (Field (Some "dest"%string) 64%N (Some "MultiLocation"%string) []); (Field (Some "xcm"%string) 73%N (Some "Xcm<()>"%string) [])] 14%N []); (Variant "ExchangeAsset"%string [(Field (Some "give"%string) 97%N (Some "MultiAssetFilter"%string) []); (Field (Some "want"%string) 76%N (Some "MultiAssets"%string) []); (Field (Some "maximal"%string) 49%N (Some "bool"%string) [])] 15%N []); (Variant "InitiateReserveWithdraw"%string [(Field (Some "assets"%string) 97%N (Some "MultiAssetFilter"%string) []); (Field (Some "reserve"%string) 64%N (Some "MultiLocation"%string) []); (Field (Some "xcm"%string) 73%N (Some "Xcm<()>"%string) [])] 16%N []); (Variant "InitiateTeleport"%string [(Field (Some "assets"%string) 97%N (Some "MultiAssetFilter"%string) []); (Field (Some "dest"%string) 64%N (Some "MultiLocation"%string) []); (Field (Some "xcm"%string) 73%N (Some "Xcm<()>"%string) [])] 17%N []); (Variant "ReportHolding"%string [(Field (Some "response_info"%string) 96%N (Some "QueryResponseInfo"%string) []); (Field (Some "assets"%string) 97%N (Some "MultiAssetFilter"%string) [])] 18%N []); (Variant "BuyExecution"%string [(Field (Some "fees"%string) 78%N (Some "MultiAsset"%string) []); (Field (Some "weight_limit"%string) 100%N (Some "WeightLimit"%string) [])] 19%N []); (Variant "RefundSurplus"%string [] 20%N []); (Variant "SetErrorHandler"%string [(Field None 73%N (Some "Xcm<Call>"%string) [])] 21%N []); (Variant "SetAppendix"%string [(Field None 73%N (Some "Xcm<Call>"%string) [])] 22%N []); (Variant "ClearError"%string [] 23%N []); (Variant "ClaimAsset"%string [(Field (Some "assets"%string) 76%N (Some "MultiAssets"%string) []); (Field (Some "ticket"%string) 64%N (Some "MultiLocation"%string) [])] 24%N []); (Variant "Trap"%string [(Field None 10%N (Some "u64"%string) [])] 25%N []); (Variant "SubscribeVersion"%string [(Field (Some "query_id"%string) 10%N (Some "QueryId"%string) []); (Field (Some "max_response_weight"%string) 9%N (Some "Weight"%string) [])] 26%N []); (Variant "UnsubscribeVersion"%string [] 27%N []); (Variant "BurnAsset"%string [(Field None 76%N (Some "MultiAssets"%string) [])] 28%N []); (Variant "ExpectAsset"%string [(Field None 76%N (Some "MultiAssets"%string) [])] 29%N []); (Variant "ExpectOrigin"%string [(Field None 93%N (Some "Option<MultiLocation>"%string) [])] 30%N []); (Variant "ExpectError"%string [(Field None 85%N (Some "Option<(u32, Error)>"%string) [])] 31%N []); (Variant "ExpectTransactStatus"%string [(Field None 91%N (Some "MaybeErrorCode"%string) [])] 32%N []); (Variant "QueryPallet"%string [(Field (Some "module_name"%string) 13%N (Some "Vec<u8>"%string) []); (Field (Some "response_info"%string) 96%N (Some "QueryResponseInfo"%string) [])] 33%N []); (Variant "ExpectPallet"%string [(Field (Some "index"%string) 67%N (Some "u32"%string) []); (Field (Some "name"%string) 13%N (Some "Vec<u8>"%string) []); (Field (Some "module_name"%string) 13%N (Some "Vec<u8>"%string) []); (Field (Some "crate_major"%string) 67%N (Some "u32"%string) []); (Field (Some "min_crate_minor"%string) 67%N (Some "u32"%string) [])] 34%N []); (Variant "ReportTransactStatus"%string [(Field None 96%N (Some "QueryResponseInfo"%string) [])] 35%N []); (Variant "ClearTransactStatus"%string [] 36%N []); (Variant "UniversalOrigin"%string [(Field None 66%N (Some "Junction"%string) [])] 37%N []); (Variant "ExportMessage"%string [(Field (Some "network"%string) 69%N (Some "NetworkId"%string) []); (Field (Some "destination"%string) 65%N (Some "InteriorMultiLocation"%string) []); (Field (Some "xcm"%string) 73%N (Some "Xcm<()>"%string) [])] 38%N []); (Variant "LockAsset"%string [(Field (Some "asset"%string) 78%N (Some "MultiAsset"%string) []); (Field (Some "unlocker"%string) 64%N (Some "MultiLocation"%string) [])] 39%N []); (Variant "UnlockAsset"%string [(Field (Some "asset"%string) 78%N (Some "MultiAsset"%string) []); (Field (Some "target"%string) 64%N (Some "MultiLocation"%string) [])] 40%N []); (Variant "NoteUnlockable"%string [(Field (Some "asset"%string) 78%N (Some "MultiAsset"%string) []); (Field (Some "owner"%string) 64%N (Some "MultiLocation"%string) [])] 41%N []); (Variant "RequestUnlock"%string [(Field (Some "asset"%string) 78%N (Some "MultiAsset"%string) []); (Field (Some "locker"%string) 64%N (Some "MultiLocation"%string) [])] 42%N []); (Variant "SetFeesMode"%string [(Field (Some "jit_withdraw"%string) 49%N (Some "bool"%string) [])] 43%N []); (Variant "SetTopic"%string [(Field None 1%N (Some "[u8; 32]"%string) [])] 44%N []); (Variant "ClearTopic"%string [] 45%N []); (Variant "AliasOrigin"%string [(Field None 64%N (Some "MultiLocation"%string) [])] 46%N []); (Variant "UnpaidExecution"%string [(Field (Some "weight_limit"%string) 100%N (Some "WeightLimit"%string) []); (Field (Some "check_origin"%string) 93%N (Some "Option<MultiLocation>"%string) [])] 47%N [])]) []).
Definition md_t76 : ty := (Ty ["xcm"%string; "v3"%string; "multiasset"%string; "MultiAssets"%string] [] (TComposite [(Field None 77%N (Some "Vec<MultiAsset>"%string) [])]) []).
Definition md_t77 : ty := (Ty [] [] (TSequence 78%N) []).
Definition md_t78 : ty := (Ty ["xcm"%string; "v3"%string; "multiasset"%string; "MultiAsset"%string] [] (TComposite [(Field (Some "id"%string) 79%N (Some "AssetId"%string) []); (Field (Some "fun"%string) 80%N (Some "Fungibility"%string) [])]) []).
Definition md_t79 : ty := (Ty ["xcm"%string; "v3"%string; "multiasset"%string; "AssetId"%string] [] (TVariant [(Variant "Concrete"%string [(Field None 64%N (Some "MultiLocation"%string) [])] 0%N []); (Variant "Abstract"%string [(Field None 1%N (Some "[u8; 32]"%string) [])] 1%N [])]) []).
Definition md_t80 : ty := (Ty ["xcm"%string; "v3"%string; "multiasset"%string; "Fungibility"%string] [] (TVariant [(Variant "Fungible"%string [(Field None 70%N (Some "u128"%string) [])] 0%N []); (Variant "NonFungible"%string [(Field None 81%N (Some "AssetInstance"%string) [])] 1%N [])]) []).
Definition md_t81 : ty := (Ty ["xcm"%string; "v3"%string; "multiasset"%string; "AssetInstance"%string] [] (TVariant [(Variant "Undefined"%string [] 0%N []); (Variant "Index"%string [(Field None 70%N (Some "u128"%string) [])] 1%N []); (Variant "Array4"%string [(Field None 17%N (Some "[u8; 4]"%string) [])] 2%N []); (Variant "Array8"%string [(Field None 82%N (Some "[u8; 8]"%string) [])] 3%N []); (Variant "Array16"%string [(Field None 83%N (Some "[u8; 16]"%string) [])] 4%N []); (Variant "Array32"%string [(Field None 1%N (Some "[u8; 32]"%string) [])] 5%N [])]) []).
Definition md_t82 : ty := (Ty [] [] (TArray 8%N 2%N) []).
Definition md_t83 : ty := (Ty [] [] (TArray 16%N 2%N) []).
Definition md_t84 : ty := (Ty ["xcm"%string; "v3"%string; "Response"%string] [] (TVariant [(Variant "Null"%string [] 0%N []); (Variant "Assets"%string [(Field None 76%N (Some "MultiAssets"%string) [])] 1%N []); (Variant "ExecutionResult"%string [(Field None 85%N (Some "Option<(u32, Error)>"%string) [])] 2%N []); (Variant "Version"%string [(Field None 4%N (Some "super::Version"%string) [])] 3%N []); (Variant "PalletsInfo"%string [(Field None 87%N (Some "BoundedVec<PalletInfo, MaxPalletsInfo>"%string) [])] 4%N []); (Variant "DispatchResult"%string [(Field None 91%N (Some "MaybeErrorCode"%string) [])] 5%N [])]) []).
Definition md_t85 : ty := (Ty ["Option"%string] [("T"%string,(Some 86%N))] (TVariant [(Variant "None"%string [] 0%N []); (Variant "Some"%string [(Field None 86%N None [])] 1%N [])]) []).
Definition md_t86 : ty := (Ty [] [] (TTuple [4%N; 60%N]) []).
Definition md_t87 : ty := (Ty ["bounded_collections"%string; "bounded_vec"%string; "BoundedVec"%string] [("T"%string,(Some 88%N)); ("S"%string,None)] (TComposite [(Field None 90%N (Some "Vec<T>"%string) [])]) []).
Definition md_t88 : ty := (Ty ["xcm"%string; "v3"%string; "PalletInfo"%string] [] (TComposite [(Field (Some "index"%string) 67%N (Some "u32"%string) []); (Field (Some "name"%string) 89%N (Some "BoundedVec<u8, MaxPalletNameLen>"%string) []); (Field (Some "module_name"%string) 89%N (Some "BoundedVec<u8, MaxPalletNameLen>"%string) []); (Field (Some "major"%string) 67%N (Some "u32"%string) []); (Field (Some "minor"%string) 67%N (Some "u32"%string) []); (Field (Some "patch"%string) 67%N (Some "u32"%string) [])]) []).
Definition md_t89 : ty := (Ty ["bounded_collections"%string; "bounded_vec"%string; "BoundedVec"%string] [("T"%string,(Some 2%N)); ("S"%string,None)] (TComposite [(Field None 13%N (Some "Vec<T>"%string) [])]) []).
Definition md_t90 : ty := (Ty [] [] (TSequence 88%N) []).
Definition md_t91 : ty := (Ty ["xcm"%string; "v3"%string; "MaybeErrorCode"%string] [] (TVariant [(Variant "Success"%string [] 0%N []); (Variant "Error"%string [(Field None 92%N (Some "BoundedVec<u8, MaxDispatchErrorLen>"%string) [])] 1%N []); (Variant "TruncatedError"%string [(Field None 92%N (Some "BoundedVec<u8, MaxDispatchErrorLen>"%string) [])] 2%N [])]) []).
Definition md_t92 : ty := (Ty ["bounded_collections"%string; "bounded_vec"%string; "BoundedVec"%string] [("T"%string,(Some 2%N)); ("S"%string,None)] (TComposite [(Field None 13%N (Some "Vec<T>"%string) [])]) []).
Definition md_t93 : ty := (Ty ["Option"%string] [("T"%string,(Some 64%N))] (TVariant [(Variant "None"%string [] 0%N []); (Variant "Some"%string [(Field None 64%N None [])] 1%N [])]) []).
Definition md_t94 : ty := (Ty ["xcm"%string; "v2"%string; "OriginKind"%string] [] (TVariant [(Variant "Native"%string [] 0%N []); (Variant "SovereignAccount"%string [] 1%N []); (Variant "Superuser"%string [] 2%N []); (Variant "Xcm"%string [] 3%N [])]) []).
Definition md_t95 : ty := (Ty ["xcm"%string; "double_encoded"%string; "DoubleEncoded"%string] [("T"%string,None)] (TComposite [(Field (Some "encoded"%string) 13%N (Some "Vec<u8>"%string) [])]) []).
Definition md_t96 : ty := (Ty ["xcm"%string; "v3"%string; "QueryResponseInfo"%string] [] (TComposite [(Field (Some "destination"%string) 64%N (Some "MultiLocation"%string) []); (Field (Some "query_id"%string) 10%N (Some "QueryId"%string) []); (Field (Some "max_weight"%string) 9%N (Some "Weight"%string) [])]) []).
Definition md_t97 : ty := (Ty ["xcm"%string; "v3"%string; "multiasset"%string; "MultiAssetFilter"%string] [] (TVariant [(Variant "Definite"%string [(Field None 76%N (Some "MultiAssets"%string) [])] 0%N []); (Variant "Wild"%string [(Field None 98%N (Some "WildMultiAsset"%string) [])] 1%N [])]) []).
Definition md_t98 : ty := (Ty ["xcm"%string; "v3"%string; "multiasset"%string; "WildMultiAsset"%string] [] (TVariant [(Variant "All"%string [] 0%N []); (Variant "AllOf"%string [(Field (Some "id"%string) 79%N (Some "AssetId"%string) []); (Field (Some "fun"%string) 99%N (Some "WildFungibility"%string) [])] 1%N []); (Variant "AllCounted"%string [(Field None 67%N (Some "u32"%string) [])] 2%N []); (Variant "AllOfCounted"%string [(Field (Some "id"%string) 79%N (Some "AssetId"%string) []); (Field (Some "fun"%string) 99%N (Some "WildFungibility"%string) []); (Field (Some "count"%string) 67%N (Some "u32"%string) [])] 3%N [])]) []).
Definition md_t99 : ty := (Ty ["xcm"%string; "v3"%string; "multiasset"%string; "WildFungibility"%string] [] (TVariant [(Variant "Fungible"%string [] 0%N []); (Variant "NonFungible"%string [] 1%N [])]) []).
Definition md_t100 : ty := (Ty ["xcm"%string; "v3"%string; "WeightLimit"%string] [] (TVariant [(Variant "Unlimited"%string [] 0%N []); (Variant "Limited"%string [(Field None 9%N (Some "Weight"%string) [])] 1%N [])]) []).
Definition md_t101 : ty := (Ty ["xcm"%string; "VersionedMultiAssets"%string] [] (TVariant [(Variant "V2"%string [(Field None 102%N (Some "v2::MultiAssets"%string) [])] 1%N []); (Variant "V3"%string [(Field None 76%N (Some "v3::MultiAssets"%string) [])] 3%N [])]) []).
Definition md_t102 : ty := (Ty ["xcm"%string; "v2"%string; "multiasset"%string; "MultiAssets"%string] [] (TComposite [(Field None 103%N (Some "Vec<MultiAsset>"%string) [])]) []).
Definition md_t103 : ty := (Ty [] [] (TSequence 104%N) []).
Definition md_t104 : ty := (Ty ["xcm"%string; "v2"%string; "multiasset"%string; "MultiAsset"%string] [] (TComposite [(Field (Some "id"%string) 105%N (Some "AssetId"%string) []); (Field (Some "fun"%string) 113%N (Some "Fungibility"%string) [])]) []).
Definition md_t105 : ty := (Ty ["xcm"%string; "v2"%string; "multiasset"%string; "AssetId"%string] [] (TVariant [(Variant "Concrete"%string [(Field None 106%N (Some "MultiLocation"%string) [])] 0%N []); (Variant "Abstract"%string [(Field None 13%N (Some "Vec<u8>"%string) [])] 1%N [])]) []).
Definition md_t106 : ty := (Ty ["xcm"%string; "v2"%string; "multilocation"%string; "MultiLocation"%string] [] (TComposite [(Field (Some "parents"%string) 2%N (Some "u8"%string) []); (Field (Some "interior"%string) 107%N (Some "Junctions"%string) [])]) []).
Definition md_t107 : ty := (Ty ["xcm"%string; "v2"%string; "multilocation"%string; "Junctions"%string] [] (TVariant [(Variant "Here"%string [] 0%N []); (Variant "X1"%string [(Field None 108%N (Some "Junction"%string) [])] 1%N []); (Variant "X2"%string [(Field None 108%N (Some "Junction"%string) []); (Field None 108%N (Some "Junction"%string) [])] 2%N []); (Variant "X3"%string [(Field None 108%N (Some "Junction"%string) []); (Field None 108%N (Some "Junction"%string) []); (Field None 108%N (Some "Junction"%string) [])] 3%N []); (Variant "X4"%string [(Field None 108%N (Some "Junction"%string) []); (Field None 108%N (Some "Junction"%string) []); (Field None 108%N (Some "Junction"%string) []); (Field None 108%N (Some "Junction"%string) [])] 4%N []); (Variant "X5"%string [(Field None 108%N (Some "Junction"%string) []); (Field None 108%N (Some "Junction"%string) []); (Field None 108%N (Some "Junction"%string) []); (Field None 108%N (Some "Junction"%string) []); (Field None 108%N (Some "Junction"%string) [])] 5%N []); (Variant "X6"%string [(Field None 108%N (Some "Junction"%string) []); (Field None 108%N (Some "Junction"%string) []); (Field None 108%N (Some "Junction"%string) []); (Field None 108%N (Some "Junction"%string) []); (Field None 108%N (Some "Junction"%string) []); (Field None 108%N (Some "Junction"%string) [])] 6%N []); (Variant "X7"%string [(Field None 108%N (Some "Junction"%string) []); (Field None 108%N (Some "Junction"%string) []); (Field None 108%N (Some "Junction"%string) []); (Field None 108%N (Some "Junction"%string) []); (Field None 108%N (Some "Junction"%string) []); (Field None 108%N (Some "Junction"%string) []); (Field None 108%N (Some "Junction"%string) [])] 7%N []); (Variant "X8"%string [(Field None 108%N (Some "Junction"%string) []); (Field None 108%N (Some "Junction"%string) []); (Field None 108%N (Some "Junction"%string) []); (Field None 108%N (Some "Junction"%string) []); (Field None 108%N (Some "Junction"%string) []); (Field None 108%N (Some "Junction"%string) []); (Field None 108%N (Some "Junction"%string) []); (Field None 108%N (Some "Junction"%string) [])] 8%N [])]) []).
Definition md_t108 : ty := (Ty ["xcm"%string; "v2"%string; "junction"%string; "Junction"%string] [] (TVariant [(Variant "Parachain"%string [(Field None 67%N (Some "u32"%string) [])] 0%N []); (Variant "AccountId32"%string [(Field (Some "network"%string) 109%N (Some "NetworkId"%string) []); (Field (Some "id"%string) 1%N (Some "[u8; 32]"%string) [])] 1%N []); (Variant "AccountIndex64"%string [(Field (Some "network"%string) 109%N (Some "NetworkId"%string) []); (Field (Some "index"%string) 10%N (Some "u64"%string) [])] 2%N []); (Variant "AccountKey20"%string [(Field (Some "network"%string) 109%N (Some "NetworkId"%string) []); (Field (Some "key"%string) 48%N (Some "[u8; 20]"%string) [])] 3%N []); (Variant "PalletInstance"%string [(Field None 2%N (Some "u8"%string) [])] 4%N []); (Variant "GeneralIndex"%string [(Field None 70%N (Some "u128"%string) [])] 5%N []); (Variant "GeneralKey"%string [(Field None 110%N (Some "WeakBoundedVec<u8, ConstU32<32>>"%string) [])] 6%N []); (Variant "OnlyChild"%string [] 7%N []); (Variant "Plurality"%string [(Field (Some "id"%string) 111%N (Some "BodyId"%string) []); (Field (Some "part"%string) 112%N (Some "BodyPart"%string) [])] 8%N [])]) []).
Definition md_t109 : ty := (Ty ["xcm"%string; "v2"%string; "NetworkId"%string] [] (TVariant [(Variant "Any"%string [] 0%N []); (Variant "Named"%string [(Field None 110%N (Some "WeakBoundedVec<u8, ConstU32<32>>"%string) [])] 1%N []); (Variant "Polkadot"%string [] 2%N []); (Variant "Kusama"%string [] 3%N [])]) []).
Definition md_t110 : ty := (Ty ["bounded_collections"%string; "weak_bounded_vec"%string; "WeakBoundedVec"%string] [("T"%string,(Some 2%N)); ("S"%string,None)] (TComposite [(Field None 13%N (Some "Vec<T>"%string) [])]) []).
Definition md_t111 : ty := (Ty ["xcm"%string; "v2"%string; "BodyId"%string] [] (TVariant [(Variant "Unit"%string [] 0%N []); (Variant "Named"%string [(Field None 110%N (Some "WeakBoundedVec<u8, ConstU32<32>>"%string) [])] 1%N []); (Variant "Index"%string [(Field None 67%N (Some "u32"%string) [])] 2%N []); (Variant "Executive"%string [] 3%N []); (Variant "Technical"%string [] 4%N []); (Variant "Legislative"%string [] 5%N []); (Variant "Judicial"%string [] 6%N []); (Variant "Defense"%string [] 7%N []); (Variant "Administration"%string [] 8%N []); (Variant "Treasury"%string [] 9%N [])]) []).
Definition md_t112 : ty := (Ty ["xcm"%string; "v2"%string; "BodyPart"%string] [] (TVariant [(Variant "Voice"%string [] 0%N []); (Variant "Members"%string [(Field (Some "count"%string) 67%N (Some "u32"%string) [])] 1%N []); (Variant "Fraction"%string [(Field (Some "nom"%string) 67%N (Some "u32"%string) []); (Field (Some "denom"%string) 67%N (Some "u32"%string) [])] 2%N []); (Variant "AtLeastProportion"%string [(Field (Some "nom"%string) 67%N (Some "u32"%string) []); (Field (Some "denom"%string) 67%N (Some "u32"%string) [])] 3%N []); (Variant "MoreThanProportion"%string [(Field (Some "nom"%string) 67%N (Some "u32"%string) []); (Field (Some "denom"%string) 67%N (Some "u32"%string) [])] 4%N [])]) []).
Definition md_t113 : ty := (Ty ["xcm"%string; "v2"%string; "multiasset"%string; "Fungibility"%string] [] (TVariant [(Variant "Fungible"%string [(Field None 70%N (Some "u128"%string) [])] 0%N []); (Variant "NonFungible"%string [(Field None 114%N (Some "AssetInstance"%string) [])] 1%N [])]) []).
Definition md_t114 : ty := (Ty ["xcm"%string; "v2"%string; "multiasset"%string; "AssetInstance"%string] [] (TVariant [(Variant "Undefined"%string [] 0%N []); (Variant "Index"%string [(Field None 70%N (Some "u128"%string) [])] 1%N []); (Variant "Array4"%string [(Field None 17%N (Some "[u8; 4]"%string) [])] 2%N []); (Variant "Array8"%string [(Field None 82%N (Some "[u8; 8]"%string) [])] 3%N []); (Variant "Array16"%string [(Field None 83%N (Some "[u8; 16]"%string) [])] 4%N []); (Variant "Array32"%string [(Field None 1%N (Some "[u8; 32]"%string) [])] 5%N []); (Variant "Blob"%string [(Field None 13%N (Some "Vec<u8>"%string) [])] 6%N [])]) []).
Definition md_t115 : ty := (Ty ["xcm"%string; "VersionedMultiLocation"%string] [] (TVariant [(Variant "V2"%string [(Field None 106%N (Some "v2::MultiLocation"%string) [])] 1%N []); (Variant "V3"%string [(Field None 64%N (Some "v3::MultiLocation"%string) [])] 3%N [])]) []).
Definition md_t116 : ty := (Ty ["cumulus_pallet_xcm"%string; "pallet"%string; "Event"%string] [("T"%string,None)] (TVariant [(Variant "InvalidFormat"%string [(Field None 1%N (Some "[u8; 32]"%string) [])] 0%N ["Downward message is invalid XCM."%string; "\[ id \]"%string]); (Variant "UnsupportedVersion"%string [(Field None 1%N (Some "[u8; 32]"%string) [])] 1%N ["Downward message is unsupported version of XCM."%string; "\[ id \]"%string]); (Variant "ExecutedDownward"%string [(Field None 1%N (Some "[u8; 32]"%string) []); (Field None 63%N (Some "Outcome"%string) [])] 2%N ["Downward message executed with the given outcome."%string; "\[ id, outcome \]"%string])]) ["
			The [event](https://docs.substrate.io/main-docs/build/events-errors/) emitted
			by this pallet.
			"%string]).
Definition md_t117 : ty := (Ty ["cumulus_pallet_dmp_queue"%string; "pallet"%string; "Event"%string] [("T"%string,None)] (TVariant [(Variant "InvalidFormat"%string [(Field (Some "message_id"%string) 1%N (Some "MessageId"%string) [])] 0%N ["Downward message is invalid XCM."%string]); (Variant "UnsupportedVersion"%string [(Field (Some "message_id"%string) 1%N (Some "MessageId"%string) [])] 1%N ["Downward message is unsupported version of XCM."%string]); (Variant "ExecutedDownward"%string [(Field (Some "message_id"%string) 1%N (Some "MessageId"%string) []); (Field (Some "outcome"%string) 63%N (Some "Outcome"%string) [])] 2%N ["Downward message executed with the given outcome."%string]); (Variant "WeightExhausted"%string [(Field (Some "message_id"%string) 1%N (Some "MessageId"%string) []); (Field (Some "remaining_weight"%string) 9%N (Some "Weight"%string) []); (Field (Some "required_weight"%string) 9%N (Some "Weight"%string) [])] 3%N ["The weight limit for handling downward messages was reached."%string]); (Variant "OverweightEnqueued"%string [(Field (Some "message_id"%string) 1%N (Some "MessageId"%string) []); (Field (Some "overweight_index"%string) 11%N (Some "OverweightIndex"%string) []); (Field (Some "required_weight"%string) 9%N (Some "Weight"%string) [])] 4%N ["Downward message is overweight and was placed in the overweight queue."%string]); (Variant "OverweightServiced"%string [(Field (Some "overweight_index"%string) 11%N (Some "OverweightIndex"%string) []); (Field (Some "weight_used"%string) 9%N (Some "Weight"%string) [])] 5%N ["Downward message from the overweight queue was executed."%string]); (Variant "MaxMessagesExhausted"%string [(Field (Some "message_id"%string) 1%N (Some "MessageId"%string) [])] 6%N ["The maximum number of downward messages was."%string])]) ["
			The [event](https://docs.substrate.io/main-docs/build/events-errors/) emitted
			by this pallet.
			"%string]).
Definition md_t118 : ty := (Ty ["pallet_xc_asset_config"%string; "pallet"%string; "Event"%string] [("T"%string,None)] (TVariant [(Variant "AssetRegistered"%string [(Field (Some "asset_location"%string) 115%N (Some "VersionedMultiLocation"%string) []); (Field (Some "asset_id"%string) 6%N (Some "T::AssetId"%string) [])] 0%N ["Registed mapping between asset type and asset Id."%string]); (Variant "UnitsPerSecondChanged"%string [(Field (Some "asset_location"%string) 115%N (Some "VersionedMultiLocation"%string) []); (Field (Some "units_per_second"%string) 6%N (Some "u128"%string) [])] 1%N ["Changed the amount of units we are charging per execution second for an asset"%string]); (Variant "AssetLocationChanged"%string [(Field (Some "previous_asset_location"%string) 115%N (Some "VersionedMultiLocation"%string) []); (Field (Some "asset_id"%string) 6%N (Some "T::AssetId"%string) []); (Field (Some "new_asset_location"%string) 115%N (Some "VersionedMultiLocation"%string) [])] 2%N ["Changed the asset type mapping for a given asset id"%string]); (Variant "SupportedAssetRemoved"%string [(Field (Some "asset_location"%string) 115%N (Some "VersionedMultiLocation"%string) [])] 3%N ["Supported asset type for fee payment removed."%string]); (Variant "AssetRemoved"%string [(Field (Some "asset_location"%string) 115%N (Some "VersionedMultiLocation"%string) []); (Field (Some "asset_id"%string) 6%N (Some "T::AssetId"%string) [])] 4%N ["Removed all information related to an asset Id"%string])]) ["
			The [event](https://docs.substrate.io/main-docs/build/events-errors/) emitted
			by this pallet.
			"%string]).
Definition md_t119 : ty := (Ty ["orml_xtokens"%string; "module"%string; "Event"%string] [("T"%string,None)] (TVariant [(Variant "TransferredMultiAssets"%string [(Field (Some "sender"%string) 0%N (Some "T::AccountId"%string) []); (Field (Some "assets"%string) 76%N (Some "MultiAssets"%string) []); (Field (Some "fee"%string) 78%N (Some "MultiAsset"%string) []); (Field (Some "dest"%string) 64%N (Some "MultiLocation"%string) [])] 0%N ["Transferred `MultiAsset` with fee."%string])]) ["
			The [event](https://docs.substrate.io/main-docs/build/events-errors/) emitted
			by this pallet.
			"%string]).
Definition md_t120 : ty := (Ty ["pallet_evm"%string; "pallet"%string; "Event"%string] [("T"%string,None)] (TVariant [(Variant "Log"%string [(Field (Some "log"%string) 121%N (Some "Log"%string) [])] 0%N ["Ethereum events from contracts."%string]); (Variant "Created"%string [(Field (Some "address"%string) 47%N (Some "H160"%string) [])] 1%N ["A contract has been created at given address."%string]); (Variant "CreatedFailed"%string [(Field (Some "address"%string) 47%N (Some "H160"%string) [])] 2%N ["A contract was attempted to be created, but the execution failed."%string]); (Variant "Executed"%string [(Field (Some "address"%string) 47%N (Some "H160"%string) [])] 3%N ["A contract has been executed successfully with states applied."%string]); (Variant "ExecutedFailed"%string [(Field (Some "address"%string) 47%N (Some "H160"%string) [])] 4%N ["A contract has been executed with errors. States are reverted with only gas fees applied."%string])]) ["
			The [event](https://docs.substrate.io/main-docs/build/events-errors/) emitted
			by this pallet.
			"%string]).
Definition md_t121 : ty := (Ty ["ethereum"%string; "log"%string; "Log"%string] [] (TComposite [(Field (Some "address"%string) 47%N (Some "H160"%string) []); (Field (Some "topics"%string) 122%N (Some "Vec<H256>"%string) []); (Field (Some "data"%string) 13%N (Some "Bytes"%string) [])]) []).
Definition md_t122 : ty := (Ty [] [] (TSequence 12%N) []).
Definition md_t123 : ty := (Ty ["pallet_ethereum"%string; "pallet"%string; "Event"%string] [] (TVariant [(Variant "Executed"%string [(Field (Some "from"%string) 47%N (Some "H160"%string) []); (Field (Some "to"%string) 47%N (Some "H160"%string) []); (Field (Some "transaction_hash"%string) 12%N (Some "H256"%string) []); (Field (Some "exit_reason"%string) 124%N (Some "ExitReason"%string) []); (Field (Some "extra_data"%string) 13%N (Some "Vec<u8>"%string) [])] 0%N ["An ethereum transaction was successfully executed."%string])]) ["
			The [event](https://docs.substrate.io/main-docs/build/events-errors/) emitted
			by this pallet.
			"%string]).
Definition md_t124 : ty := (Ty ["evm_core"%string; "error"%string; "ExitReason"%string] [] (TVariant [(Variant "Succeed"%string [(Field None 125%N (Some "ExitSucceed"%string) [])] 0%N []); (Variant "Error"%string [(Field None 126%N (Some "ExitError"%string) [])] 1%N []); (Variant "Revert"%string [(Field None 130%N (Some "ExitRevert"%string) [])] 2%N []); (Variant "Fatal"%string [(Field None 131%N (Some "ExitFatal"%string) [])] 3%N [])]) []).
Definition md_t125 : ty := (Ty ["evm_core"%string; "error"%string; "ExitSucceed"%string] [] (TVariant [(Variant "Stopped"%string [] 0%N []); (Variant "Returned"%string [] 1%N []); (Variant "Suicided"%string [] 2%N [])]) []).
Definition md_t126 : ty := (Ty ["evm_core"%string; "error"%string; "ExitError"%string] [] (TVariant [(Variant "StackUnderflow"%string [] 0%N []); (Variant "StackOverflow"%string [] 1%N []); (Variant "InvalidJump"%string [] 2%N []); (Variant "InvalidRange"%string [] 3%N []); (Variant "DesignatedInvalid"%string [] 4%N []); (Variant "CallTooDeep"%string [] 5%N []); (Variant "CreateCollision"%string [] 6%N []); (Variant "CreateContractLimit"%string [] 7%N []); (Variant "InvalidCode"%string [(Field None 127%N (Some "Opcode"%string) [])] 15%N []); (Variant "OutOfOffset"%string [] 8%N []); (Variant "OutOfGas"%string [] 9%N []); (Variant "OutOfFund"%string [] 10%N []); (Variant "PCUnderflow"%string [] 11%N []); (Variant "CreateEmpty"%string [] 12%N []); (Variant "Other"%string [(Field None 128%N (Some "Cow<'static, str>"%string) [])] 13%N []); (Variant "MaxNonce"%string [] 14%N [])]) []).
Definition md_t127 : ty := (Ty ["evm_core"%string; "opcode"%string; "Opcode"%string] [] (TComposite [(Field None 2%N (Some "u8"%string) [])]) []).
Definition md_t128 : ty := (Ty ["Cow"%string] [("T"%string,(Some 129%N))] (TComposite [(Field None 129%N None [])]) []).
Definition md_t129 : ty := (Ty [] [] (TPrimitive PrStr) []).
Definition md_t130 : ty := (Ty ["evm_core"%string; "error"%string; "ExitRevert"%string] [] (TVariant [(Variant "Reverted"%string [] 0%N [])]) []).
Definition md_t131 : ty := (Ty ["evm_core"%string; "error"%string; "ExitFatal"%string] [] (TVariant [(Variant "NotSupported"%string [] 0%N []); (Variant "UnhandledInterrupt"%string [] 1%N []); (Variant "CallErrorAsFatal"%string [(Field None 126%N (Some "ExitError"%string) [])] 2%N []); (Variant "Other"%string [(Field None 128%N (Some "Cow<'static, str>"%string) [])] 3%N [])]) []).
Definition md_t132 : ty := (Ty ["pallet_custom_signatures"%string; "pallet"%string; "Event"%string] [("T"%string,None)] (TVariant [(Variant "Executed"%string [(Field None 0%N (Some "T::AccountId"%string) []); (Field None 31%N (Some "DispatchResult"%string) [])] 0%N ["A call just executed. \[result\]"%string])]) ["
			The [event](https://docs.substrate.io/main-docs/build/events-errors/) emitted
			by this pallet.
			"%string]).
Definition md_t133 : ty := (Ty ["pallet_base_fee"%string; "pallet"%string; "Event"%string] [] (TVariant [(Variant "NewBaseFeePerGas"%string [(Field (Some "fee"%string) 134%N (Some "U256"%string) [])] 0%N []); (Variant "BaseFeeOverflow"%string [] 1%N []); (Variant "NewElasticity"%string [(Field (Some "elasticity"%string) 136%N (Some "Permill"%string) [])] 2%N [])]) ["
			The [event](https://docs.substrate.io/main-docs/build/events-errors/) emitted
			by this pallet.
			"%string]).
Definition md_t134 : ty := (Ty ["primitive_types"%string; "U256"%string] [] (TComposite [(Field None 135%N (Some "[u64; 4]"%string) [])]) []).
Definition md_t135 : ty := (Ty [] [] (TArray 4%N 11%N) []).
Definition md_t136 : ty := (Ty ["sp_arithmetic"%string; "per_things"%string; "Permill"%string] [] (TComposite [(Field None 4%N (Some "u32"%string) [])]) []).
Definition md_t137 : ty := (Ty ["pallet_contracts"%string; "pallet"%string; "Event"%string] [("T"%string,None)] (TVariant [(Variant "Instantiated"%string [(Field (Some "deployer"%string) 0%N (Some "T::AccountId"%string) []); (Field (Some "contract"%string) 0%N (Some "T::AccountId"%string) [])] 0%N ["Contract deployed by address at the specified address."%string]); (Variant "Terminated"%string [(Field (Some "contract"%string) 0%N (Some "T::AccountId"%string) ["The contract that was terminated."%string]); (Field (Some "beneficiary"%string) 0%N (Some "T::AccountId"%string) ["The account that received the contracts remaining balance"%string])] 1%N ["Contract has been removed."%string; ""%string; "# Note"%string; ""%string; "The only way for a contract to be removed and emitting this event is by calling"%string; "`seal_terminate`."%string]); (Variant "CodeStored"%string [(Field (Some "code_hash"%string) 12%N (Some "T::Hash"%string) [])] 2%N ["Code with the specified hash has been stored."%string]); (Variant "ContractEmitted"%string [(Field (Some "contract"%string) 0%N (Some "T::AccountId"%string) ["The contract that emitted the event."%string]); (Field (Some "data"%string) 13%N (Some "Vec<u8>"%string) ["Data supplied by the contract. Metadata generated during contract compilation"%string; "is needed to decode it."%string])] 3%N ["A custom event emitted by the contract."%string]); (Variant "CodeRemoved"%string [(Field (Some "code_hash"%string) 12%N (Some "T::Hash"%string) [])] 4%N ["A code with the specified hash was removed."%string]); (Variant "ContractCodeUpdated"%string [(Field (Some "contract"%string) 0%N (Some "T::AccountId"%string) ["The contract that has been updated."%string]); (Field (Some "new_code_hash"%string) 12%N (Some "T::Hash"%string) ["New code hash that was set for the contract."%string]); (Field (Some "old_code_hash"%string) 12%N (Some "T::Hash"%string) ["Previous code hash of the contract."%string])] 5%N ["A contract's code was updated."%string]); (Variant "Called"%string [(Field (Some "caller"%string) 138%N (Some "Origin<T>"%string) ["The caller of the `contract`."%string]); (Field (Some "contract"%string) 0%N (Some "T::AccountId"%string) ["The contract that was called."%string])] 6%N ["A contract was called either by a plain account or another contract."%string; ""%string; "# Note"%string; ""%string; "Please keep in mind that like all events this is only emitted for successful"%string; "calls. This is because on failure all storage changes including events are"%string; "rolled back."%string]); (Variant "DelegateCalled"%string [(Field (Some "contract"%string) 0%N (Some "T::AccountId"%string) ["The contract that performed the delegate call and hence in whose context"%string; "the `code_hash` is executed."%string]); (Field (Some "code_hash"%string) 12%N (Some "CodeHash<T>"%string) ["The code hash that was delegate called."%string])] 7%N ["A contract delegate called a code hash."%string; ""%string; "# Note"%string; ""%string; "Please keep in mind that like all events this is only emitted for successful"%string; "calls. This is because on failure all storage changes including events are"%string; "rolled back."%string])]) ["
			The [event](https://docs.substrate.io/main-docs/build/events-errors/) emitted
			by this pallet.
			"%string]).
Definition md_t138 : ty := (Ty ["pallet_contracts"%string; "Origin"%string] [("T"%string,(Some 139%N))] (TVariant [(Variant "Root"%string [] 0%N []); (Variant "Signed"%string [(Field None 0%N (Some "T::AccountId"%string) [])] 1%N [])]) []).
Definition md_t139 : ty := (Ty ["astar_runtime"%string; "Runtime"%string] [] (TComposite []) []).
Definition md_t140 : ty := (Ty ["pallet_sudo"%string; "pallet"%string; "Event"%string] [("T"%string,None)] (TVariant [(Variant "Sudid"%string [(Field (Some "sudo_result"%string) 31%N (Some "DispatchResult"%string) [])] 0%N ["A sudo just took place. \[result\]"%string]); (Variant "KeyChanged"%string [(Field (Some "old_sudoer"%string) 141%N (Some "Option<T::AccountId>"%string) [])] 1%N ["The \[sudoer\] just switched identity; the old key is supplied if one existed."%string]); (Variant "SudoAsDone"%string [(Field (Some "sudo_result"%string) 31%N (Some "DispatchResult"%string) [])] 2%N ["A sudo just took place. \[result\]"%string])]) ["
			The [event](https://docs.substrate.io/main-docs/build/events-errors/) emitted
			by this pallet.
			"%string]).
Definition md_t141 : ty := (Ty ["Option"%string] [("T"%string,(Some 0%N))] (TVariant [(Variant "None"%string [] 0%N []); (Variant "Some"%string [(Field None 0%N None [])] 1%N [])]) []).
Definition md_t142 : ty := (Ty ["frame_system"%string; "Phase"%string] [] (TVariant [(Variant "ApplyExtrinsic"%string [(Field None 4%N (Some "u32"%string) [])] 0%N []); (Variant "Finalization"%string [] 1%N []); (Variant "Initialization"%string [] 2%N [])]) []).
Definition md_t143 : ty := (Ty [] [] (TSequence 144%N) []).
Definition md_t144 : ty := (Ty [] [] (TTuple [4%N; 4%N]) []).
Definition md_t145 : ty := (Ty ["frame_system"%string; "LastRuntimeUpgradeInfo"%string] [] (TComposite [(Field (Some "spec_version"%string) 67%N (Some "codec::Compact<u32>"%string) []); (Field (Some "spec_name"%string) 129%N (Some "sp_runtime::RuntimeString"%string) [])]) []).
Definition md_t146 : ty := (Ty ["frame_system"%string; "pallet"%string; "Call"%string] [("T"%string,None)] (TVariant [(Variant "remark"%string [(Field (Some "remark"%string) 13%N (Some "Vec<u8>"%string) [])] 0%N ["Make some on-chain remark."%string; ""%string; "- `O(1)`"%string]); (Variant "set_heap_pages"%string [(Field (Some "pages"%string) 11%N (Some "u64"%string) [])] 1%N ["Set the number of pages in the WebAssembly environment's heap."%string]); (Variant "set_code"%string [(Field (Some "code"%string) 13%N (Some "Vec<u8>"%string) [])] 2%N ["Set the new runtime code."%string]); (Variant "set_code_without_checks"%string [(Field (Some "code"%string) 13%N (Some "Vec<u8>"%string) [])] 3%N ["Set the new runtime code without doing any checks of the given `code`."%string]); (Variant "set_storage"%string [(Field (Some "items"%string) 147%N (Some "Vec<KeyValue>"%string) [])] 4%N ["Set some items of storage."%string]); (Variant "kill_storage"%string [(Field (Some "keys"%string) 149%N (Some "Vec<Key>"%string) [])] 5%N ["Kill some items from storage."%string]); (Variant "kill_prefix"%string [(Field (Some "prefix"%string) 13%N (Some "Key"%string) []); (Field (Some "subkeys"%string) 4%N (Some "u32"%string) [])] 6%N ["Kill all storage items with a key that starts with the given prefix."%string; ""%string; "**NOTE:** We rely on the Root origin to provide us the number of subkeys under"%string; "the prefix we are removing to accurately calculate the weight of this function."%string]); (Variant "remark_with_event"%string [(Field (Some "remark"%string) 13%N (Some "Vec<u8>"%string) [])] 7%N ["Make some on-chain remark and emit event."%string])]) ["Contains one variant per dispatchable that can be called by an extrinsic."%string]).
Definition md_t147 : ty := (Ty [] [] (TSequence 148%N) []).
Definition md_t148 : ty := (Ty [] [] (TTuple [13%N; 13%N]) []).
Definition md_t149 : ty := (Ty [] [] (TSequence 13%N) []).
Definition md_t150 : ty := (Ty ["frame_system"%string; "limits"%string; "BlockWeights"%string] [] (TComposite [(Field (Some "base_block"%string) 9%N (Some "Weight"%string) []); (Field (Some "max_block"%string) 9%N (Some "Weight"%string) []); (Field (Some "per_class"%string) 151%N (Some "PerDispatchClass<WeightsPerClass>"%string) [])]) []).
Definition md_t151 : ty := (Ty ["frame_support"%string; "dispatch"%string; "PerDispatchClass"%string] [("T"%string,(Some 152%N))] (TComposite [(Field (Some "normal"%string) 152%N (Some "T"%string) []); (Field (Some "operational"%string) 152%N (Some "T"%string) []); (Field (Some "mandatory"%string) 152%N (Some "T"%string) [])]) []).
Definition md_t152 : ty := (Ty ["frame_system"%string; "limits"%string; "WeightsPerClass"%string] [] (TComposite [(Field (Some "base_extrinsic"%string) 9%N (Some "Weight"%string) []); (Field (Some "max_extrinsic"%string) 153%N (Some "Option<Weight>"%string) []); (Field (Some "max_total"%string) 153%N (Some "Option<Weight>"%string) []); (Field (Some "reserved"%string) 153%N (Some "Option<Weight>"%string) [])]) []).
Definition md_t153 : ty := (Ty ["Option"%string] [("T"%string,(Some 9%N))] (TVariant [(Variant "None"%string [] 0%N []); (Variant "Some"%string [(Field None 9%N None [])] 1%N [])]) []).
Definition md_t154 : ty := (Ty ["frame_system"%string; "limits"%string; "BlockLength"%string] [] (TComposite [(Field (Some "max"%string) 155%N (Some "PerDispatchClass<u32>"%string) [])]) []).
Definition md_t155 : ty := (Ty ["frame_support"%string; "dispatch"%string; "PerDispatchClass"%string] [("T"%string,(Some 4%N))] (TComposite [(Field (Some "normal"%string) 4%N (Some "T"%string) []); (Field (Some "operational"%string) 4%N (Some "T"%string) []); (Field (Some "mandatory"%string) 4%N (Some "T"%string) [])]) []).
Definition md_t156 : ty := (Ty ["sp_weights"%string; "RuntimeDbWeight"%string] [] (TComposite [(Field (Some "read"%string) 11%N (Some "u64"%string) []); (Field (Some "write"%string) 11%N (Some "u64"%string) [])]) []).
Definition md_t157 : ty := (Ty ["sp_version"%string; "RuntimeVersion"%string] [] (TComposite [(Field (Some "spec_name"%string) 129%N (Some "RuntimeString"%string) []); (Field (Some "impl_name"%string) 129%N (Some "RuntimeString"%string) []); (Field (Some "authoring_version"%string) 4%N (Some "u32"%string) []); (Field (Some "spec_version"%string) 4%N (Some "u32"%string) []); (Field (Some "impl_version"%string) 4%N (Some "u32"%string) []); (Field (Some "apis"%string) 158%N (Some "ApisVec"%string) []); (Field (Some "transaction_version"%string) 4%N (Some "u32"%string) []); (Field (Some "state_version"%string) 2%N (Some "u8"%string) [])]) []).
Definition md_t158 : ty := (Ty ["Cow"%string] [("T"%string,(Some 159%N))] (TComposite [(Field None 159%N None [])]) []).
Definition md_t159 : ty := (Ty [] [] (TSequence 160%N) []).
Definition md_t160 : ty := (Ty [] [] (TTuple [82%N; 4%N]) []).
Definition md_t161 : ty := (Ty ["frame_system"%string; "pallet"%string; "Error"%string] [("T"%string,None)] (TVariant [(Variant "InvalidSpecName"%string [] 0%N ["The name of specification does not match between the current runtime"%string; "and the new runtime."%string]); (Variant "SpecVersionNeedsToIncrease"%string [] 1%N ["The specification version is not allowed to decrease between the current runtime"%string; "and the new runtime."%string]); (Variant "FailedToExtractRuntimeVersion"%string [] 2%N ["Failed to extract the runtime version from the new runtime."%string; ""%string; "Either calling `Core_version` or decoding `RuntimeVersion` failed."%string]); (Variant "NonDefaultComposite"%string [] 3%N ["Suicide called when the account has non-default composite data."%string]); (Variant "NonZeroRefCount"%string [] 4%N ["There is a non-zero reference count preventing the account from being purged."%string]); (Variant "CallFiltered"%string [] 5%N ["The origin filter prevent the call to be dispatched."%string])]) ["Error for the System pallet"%string]).
Definition md_t162 : ty := (Ty ["pallet_utility"%string; "pallet"%string; "Call"%string] [("T"%string,None)] (TVariant [(Variant "batch"%string [(Field (Some "calls"%string) 163%N (Some "Vec<<T as Config>::RuntimeCall>"%string) [])] 0%N ["Send a batch of dispatch calls."%string; ""%string; "May be called from any origin except `None`."%string; ""%string; "- `calls`: The calls to be dispatched from the same origin. The number of call must not"%string; "  exceed the constant: `batched_calls_limit` (available in constant metadata)."%string; ""%string; "If origin is root then the calls are dispatched without checking origin filter. (This"%string; "includes bypassing `frame_system::Config::BaseCallFilter`)."%string; ""%string; "## Complexity"%string; "- O(C) where C is the number of calls to be batched."%string; ""%string; "This will return `Ok` in all circumstances. To determine the success of the batch, an"%string; "event is deposited. If a call failed and the batch was interrupted, then the"%string; "`BatchInterrupted` event is deposited, along with the number of successful calls made"%string; "and the error of the failed call. If all were successful, then the `BatchCompleted`"%string; "event is deposited."%string]); (Variant "as_derivative"%string [(Field (Some "index"%string) 38%N (Some "u16"%string) []); (Field (Some "call"%string) 164%N (Some "Box<<T as Config>::RuntimeCall>"%string) [])] 1%N ["Send a call through an indexed pseudonym of the sender."%string; ""%string; "Filter from origin are passed along. The call will be dispatched with an origin which"%string; "use the same filter as the origin of this call."%string; ""%string; "NOTE: If you need to ensure that any account-based filtering is not honored (i.e."%string; "because you expect `proxy` to have been used prior in the call stack and you do not want"%string; "the call restrictions to apply to any sub-accounts), then use `as_multi_threshold_1`"%string; "in the Multisig pallet instead."%string; ""%string; "NOTE: Prior to version *12, this was called `as_limited_sub`."%string; ""%string; "The dispatch origin for this call must be _Signed_."%string]); (Variant "batch_all"%string [(Field (Some "calls"%string) 163%N (Some "Vec<<T as Config>::RuntimeCall>"%string) [])] 2%N ["Send a batch of dispatch calls and atomically execute them."%string; "The whole transaction will rollback and fail if any of the calls failed."%string; ""%string; "May be called from any origin except `None`."%string; ""%string; "- `calls`: The calls to be dispatched from the same origin. The number of call must not"%string; "  exceed the constant: `batched_calls_limit` (available in constant metadata)."%string; ""%string; "If origin is root then the calls are dispatched without checking origin filter. (This"%string; "includes bypassing `frame_system::Config::BaseCallFilter`)."%string; ""%string; "## Complexity"%string; "- O(C) where C is the number of calls to be batched."%string]); (Variant "dispatch_as"%string [(Field (Some "as_origin"%string) 288%N (Some "Box<T::PalletsOrigin>"%string) []); (Field (Some "call"%string) 164%N (Some "Box<<T as Config>::RuntimeCall>"%string) [])] 3%N ["Dispatches a function call with a provided origin."%string; ""%string; "The dispatch origin for this call must be _Root_."%string; ""%string; "## Complexity"%string; "- O(1)."%string]); (Variant "force_batch"%string [(Field (Some "calls"%string) 163%N (Some "Vec<<T as Config>::RuntimeCall>"%string) [])] 4%N ["Send a batch of dispatch calls."%string; "Unlike `batch`, it allows errors and won't interrupt."%string; ""%string; "May be called from any origin except `None`."%string; ""%string; "- `calls`: The calls to be dispatched from the same origin. The number of call must not"%string; "  exceed the constant: `batched_calls_limit` (available in constant metadata)."%string; ""%string; "If origin is root then the calls are dispatch without checking origin filter. (This"%string; "includes bypassing `frame_system::Config::BaseCallFilter`)."%string; ""%string; "## Complexity"%string; "- O(C) where C is the number of calls to be batched."%string]); (Variant "with_weight"%string [(Field (Some "call"%string) 164%N (Some "Box<<T as Config>::RuntimeCall>"%string) []); (Field (Some "weight"%string) 9%N (Some "Weight"%string) [])] 5%N ["Dispatch a function call with a specified weight."%string; ""%string; "This function does not check the weight of the call, and instead allows the"%string; "Root origin to specify the weight of the call."%string; ""%string; "The dispatch origin for this call must be _Root_."%string])]) ["Contains one variant per dispatchable that can be called by an extrinsic."%string]).
Definition md_t163 : ty := (Ty [] [] (TSequence 164%N) []).
Definition md_t164 : ty := (Ty ["astar_runtime"%string; "RuntimeCall"%string] [] (TVariant [(Variant "System"%string [(Field None 146%N (Some "self::sp_api_hidden_includes_construct_runtime::hidden_include::dispatch
::CallableCallFor<System, Runtime>"%string) [])] 10%N []); (Variant "Utility"%string [(Field None 162%N (Some "self::sp_api_hidden_includes_construct_runtime::hidden_include::dispatch
::CallableCallFor<Utility, Runtime>"%string) [])] 11%N []); (Variant "Identity"%string [(Field None 165%N (Some "self::sp_api_hidden_includes_construct_runtime::hidden_include::dispatch
::CallableCallFor<Identity, Runtime>"%string) [])] 12%N []); (Variant "Timestamp"%string [(Field None 207%N (Some "self::sp_api_hidden_includes_construct_runtime::hidden_include::dispatch
::CallableCallFor<Timestamp, Runtime>"%string) [])] 13%N []); (Variant "Multisig"%string [(Field None 208%N (Some "self::sp_api_hidden_includes_construct_runtime::hidden_include::dispatch
::CallableCallFor<Multisig, Runtime>"%string) [])] 14%N []); (Variant "Proxy"%string [(Field None 210%N (Some "self::sp_api_hidden_includes_construct_runtime::hidden_include::dispatch
::CallableCallFor<Proxy, Runtime>"%string) [])] 15%N []); (Variant "ParachainSystem"%string [(Field None 212%N (Some "self::sp_api_hidden_includes_construct_runtime::hidden_include::dispatch
::CallableCallFor<ParachainSystem, Runtime>"%string) [])] 20%N []); (Variant "ParachainInfo"%string [(Field None 225%N (Some "self::sp_api_hidden_includes_construct_runtime::hidden_include::dispatch
::CallableCallFor<ParachainInfo, Runtime>"%string) [])] 21%N []); (Variant "Balances"%string [(Field None 226%N (Some "self::sp_api_hidden_includes_construct_runtime::hidden_include::dispatch
::CallableCallFor<Balances, Runtime>"%string) [])] 31%N []); (Variant "Vesting"%string [(Field None 227%N (Some "self::sp_api_hidden_includes_construct_runtime::hidden_include::dispatch
::CallableCallFor<Vesting, Runtime>"%string) [])] 32%N []); (Variant "DappsStaking"%string [(Field None 229%N (Some "self::sp_api_hidden_includes_construct_runtime::hidden_include::dispatch
::CallableCallFor<DappsStaking, Runtime>"%string) [])] 34%N []); (Variant "BlockReward"%string [(Field None 231%N (Some "self::sp_api_hidden_includes_construct_runtime::hidden_include::dispatch
::CallableCallFor<BlockReward, Runtime>"%string) [])] 35%N []); (Variant "Assets"%string [(Field None 232%N (Some "self::sp_api_hidden_includes_construct_runtime::hidden_include::dispatch
::CallableCallFor<Assets, Runtime>"%string) [])] 36%N []); (Variant "CollatorSelection"%string [(Field None 233%N (Some "self::sp_api_hidden_includes_construct_runtime::hidden_include::dispatch
::CallableCallFor<CollatorSelection, Runtime>"%string) [])] 41%N []); (Variant "Session"%string [(Field None 234%N (Some "self::sp_api_hidden_includes_construct_runtime::hidden_include::dispatch
::CallableCallFor<Session, Runtime>"%string) [])] 42%N []); (Variant "XcmpQueue"%string [(Field None 238%N (Some "self::sp_api_hidden_includes_construct_runtime::hidden_include::dispatch
::CallableCallFor<XcmpQueue, Runtime>"%string) [])] 50%N []); (Variant "PolkadotXcm"%string [(Field None 239%N (Some "self::sp_api_hidden_includes_construct_runtime::hidden_include::dispatch
::CallableCallFor<PolkadotXcm, Runtime>"%string) [])] 51%N []); (Variant "CumulusXcm"%string [(Field None 261%N (Some "self::sp_api_hidden_includes_construct_runtime::hidden_include::dispatch
::CallableCallFor<CumulusXcm, Runtime>"%string) [])] 52%N []); (Variant "DmpQueue"%string [(Field None 262%N (Some "self::sp_api_hidden_includes_construct_runtime::hidden_include::dispatch
::CallableCallFor<DmpQueue, Runtime>"%string) [])] 53%N []); (Variant "XcAssetConfig"%string [(Field None 263%N (Some "self::sp_api_hidden_includes_construct_runtime::hidden_include::dispatch
::CallableCallFor<XcAssetConfig, Runtime>"%string) [])] 54%N []); (Variant "Xtokens"%string [(Field None 264%N (Some "self::sp_api_hidden_includes_construct_runtime::hidden_include::dispatch
::CallableCallFor<Xtokens, Runtime>"%string) [])] 55%N []); (Variant "EVM"%string [(Field None 268%N (Some "self::sp_api_hidden_includes_construct_runtime::hidden_include::dispatch
::CallableCallFor<EVM, Runtime>"%string) [])] 60%N []); (Variant "Ethereum"%string [(Field None 272%N (Some "self::sp_api_hidden_includes_construct_runtime::hidden_include::dispatch
::CallableCallFor<Ethereum, Runtime>"%string) [])] 61%N []); (Variant "EthCall"%string [(Field None 282%N (Some "self::sp_api_hidden_includes_construct_runtime::hidden_include::dispatch
::CallableCallFor<EthCall, Runtime>"%string) [])] 62%N []); (Variant "BaseFee"%string [(Field None 283%N (Some "self::sp_api_hidden_includes_construct_runtime::hidden_include::dispatch
::CallableCallFor<BaseFee, Runtime>"%string) [])] 63%N []); (Variant "Contracts"%string [(Field None 284%N (Some "self::sp_api_hidden_includes_construct_runtime::hidden_include::dispatch
::CallableCallFor<Contracts, Runtime>"%string) [])] 70%N []); (Variant "Sudo"%string [(Field None 287%N (Some "self::sp_api_hidden_includes_construct_runtime::hidden_include::dispatch
::CallableCallFor<Sudo, Runtime>"%string) [])] 99%N [])]) []).
Definition md_t165 : ty := (Ty ["pallet_identity"%string; "pallet"%string; "Call"%string] [("T"%string,None)] (TVariant [(Variant "add_registrar"%string [(Field (Some "account"%string) 166%N (Some "AccountIdLookupOf<T>"%string) [])] 0%N ["Add a registrar to the system."%string; ""%string; "The dispatch origin for this call must be `T::RegistrarOrigin`."%string; ""%string; "- `account`: the account of the registrar."%string; ""%string; "Emits `RegistrarAdded` if successful."%string; ""%string; "## Complexity"%string; "- `O(R)` where `R` registrar-count (governance-bounded and code-bounded)."%string]); (Variant "set_identity"%string [(Field (Some "info"%string) 168%N (Some "Box<IdentityInfo<T::MaxAdditionalFields>>"%string) [])] 1%N ["Set an account's identity information and reserve the appropriate deposit."%string; ""%string; "If the account already has identity information, the deposit is taken as part payment"%string; "for the new deposit."%string; ""%string; "The dispatch origin for this call must be _Signed_."%string; ""%string; "- `info`: The identity information."%string; ""%string; "Emits `IdentitySet` if successful."%string; ""%string; "## Complexity"%string; "- `O(X + X' + R)`"%string; "  - where `X` additional-field-count (deposit-bounded and code-bounded)"%string; "  - where `R` judgements-count (registrar-count-bounded)"%string]); (Variant "set_subs"%string [(Field (Some "subs"%string) 202%N (Some "Vec<(T::AccountId, Data)>"%string) [])] 2%N ["Set the sub-accounts of the sender."%string; ""%string; "Payment: Any aggregate balance reserved by previous `set_subs` calls will be returned"%string; "and an amount `SubAccountDeposit` will be reserved for each item in `subs`."%string; ""%string; "The dispatch origin for this call must be _Signed_ and the sender must have a registered"%string; "identity."%string; ""%string; "- `subs`: The identity's (new) sub-accounts."%string; ""%string; "## Complexity"%string; "- `O(P + S)`"%string; "  - where `P` old-subs-count (hard- and deposit-bounded)."%string; "  - where `S` subs-count (hard- and deposit-bounded)."%string]); (Variant "clear_identity"%string [] 3%N ["Clear an account's identity info and all sub-accounts and return all deposits."%string; ""%string; "Payment: All reserved balances on the account are returned."%string; ""%string; "The dispatch origin for this call must be _Signed_ and the sender must have a registered"%string; "identity."%string; ""%string; "Emits `IdentityCleared` if successful."%string; ""%string; "## Complexity"%string; "- `O(R + S + X)`"%string; "  - where `R` registrar-count (governance-bounded)."%string; "  - where `S` subs-count (hard- and deposit-bounded)."%string; "  - where `X` additional-field-count (deposit-bounded and code-bounded)."%string]); (Variant "request_judgement"%string [(Field (Some "reg_index"%string) 67%N (Some "RegistrarIndex"%string) []); (Field (Some "max_fee"%string) 70%N (Some "BalanceOf<T>"%string) [])] 4%N ["Request a judgement from a registrar."%string; ""%string; "Payment: At most `max_fee` will be reserved for payment to the registrar if judgement"%string; "given."%string; ""%string; "The dispatch origin for this call must be _Signed_ and the sender must have a"%string; "registered identity."%string; ""%string; "- `reg_index`: The index of the registrar whose judgement is requested."%string; "- `max_fee`: The maximum fee that may be paid. This should just be auto-populated as:"%string; ""%string; "```nocompile"%string; "Self::registrars().get(reg_index).unwrap().fee"%string; "```"%string; ""%string; "Emits `JudgementRequested` if successful."%string; ""%string; "## Complexity"%string; "- `O(R + X)`."%string; "  - where `R` registrar-count (governance-bounded)."%string; "  - where `X` additional-field-count (deposit-bounded and code-bounded)."%string]); (Variant "cancel_request"%string [(Field (Some "reg_index"%string) 4%N (Some "RegistrarIndex"%string) [])] 5%N ["Cancel a previous request."%string; ""%string; "Payment: A previously reserved deposit is returned on success."%string; ""%string; "The dispatch origin for this call must be _Signed_ and the sender must have a"%string; "registered identity."%string; ""%string; "- `reg_index`: The index of the registrar whose judgement is no longer requested."%string; ""%string; "Emits `JudgementUnrequested` if successful."%string; ""%string; "## Complexity"%string; "- `O(R + X)`."%string; "  - where `R` registrar-count (governance-bounded)."%string; "  - where `X` additional-field-count (deposit-bounded and code-bounded)."%string]); (Variant "set_fee"%string [(Field (Some "index"%string) 67%N (Some "RegistrarIndex"%string) []); (Field (Some "fee"%string) 70%N (Some "BalanceOf<T>"%string) [])] 6%N ["Set the fee required for a judgement to be requested from a registrar."%string; ""%string; "The dispatch origin for this call must be _Signed_ and the sender must be the account"%string; "of the registrar whose index is `index`."%string; ""%string; "- `index`: the index of the registrar whose fee is to be set."%string; "- `fee`: the new fee."%string; ""%string; "## Complexity"%string; "- `O(R)`."%string; "  - where `R` registrar-count (governance-bounded)."%string]); (Variant "set_account_id"%string [(Field (Some "index"%string) 67%N (Some "RegistrarIndex"%string) []); (Field (Some "new"%string) 166%N (Some "AccountIdLookupOf<T>"%string) [])] 7%N ["Change the account associated with a registrar."%string; ""%string; "The dispatch origin for this call must be _Signed_ and the sender must be the account"%string; "of the registrar whose index is `index`."%string; ""%string; "- `index`: the index of the registrar whose fee is to be set."%string; "- `new`: the new account ID."%string; ""%string; "## Complexity"%string; "- `O(R)`."%string; "  - where `R` registrar-count (governance-bounded)."%string]); (Variant "set_fields"%string [(Field (Some "index"%string) 67%N (Some "RegistrarIndex"%string) []); (Field (Some "fields"%string) 204%N (Some "IdentityFields"%string) [])] 8%N ["Set the field information for a registrar."%string; ""%string; "The dispatch origin for this call must be _Signed_ and the sender must be the account"%string; "of the registrar whose index is `index`."%string; ""%string; "- `index`: the index of the registrar whose fee is to be set."%string; "- `fields`: the fields that the registrar concerns themselves with."%string; ""%string; "## Complexity"%string; "- `O(R)`."%string; "  - where `R` registrar-count (governance-bounded)."%string]); (Variant "provide_judgement"%string [(Field (Some "reg_index"%string) 67%N (Some "RegistrarIndex"%string) []); (Field (Some "target"%string) 166%N (Some "AccountIdLookupOf<T>"%string) []); (Field (Some "judgement"%string) 206%N (Some "Judgement<BalanceOf<T>>"%string) []); (Field (Some "identity"%string) 12%N (Some "T::Hash"%string) [])] 9%N ["Provide a judgement for an account's identity."%string; ""%string; "The dispatch origin for this call must be _Signed_ and the sender must be the account"%string; "of the registrar whose index is `reg_index`."%string; ""%string; "- `reg_index`: the index of the registrar whose judgement is being made."%string; "- `target`: the account whose identity the judgement is upon. This must be an account"%string; "  with a registered identity."%string; "- `judgement`: the judgement of the registrar of index `reg_index` about `target`."%string; "- `identity`: The hash of the [`IdentityInfo`] for that the judgement is provided."%string; ""%string; "Emits `JudgementGiven` if successful."%string; ""%string; "## Complexity"%string; "- `O(R + X)`."%string; "  - where `R` registrar-count (governance-bounded)."%string; "  - where `X` additional-field-count (deposit-bounded and code-bounded)."%string]); (Variant "kill_identity"%string [(Field (Some "target"%string) 166%N (Some "AccountIdLookupOf<T>"%string) [])] 10%N ["Remove an account's identity and sub-account information and slash the deposits."%string; ""%string; "Payment: Reserved balances from `set_subs` and `set_identity` are slashed and handled by"%string; "`Slash`. Verification request deposits are not returned; they should be cancelled"%string; "manually using `cancel_request`."%string; ""%string; "The dispatch origin for this call must match `T::ForceOrigin`."%string; ""%string; "- `target`: the account whose identity the judgement is upon. This must be an account"%string; "  with a registered identity."%string; ""%string; "Emits `IdentityKilled` if successful."%string; ""%string; "## Complexity"%string; "- `O(R + S + X)`"%string; "  - where `R` registrar-count (governance-bounded)."%string; "  - where `S` subs-count (hard- and deposit-bounded)."%string; "  - where `X` additional-field-count (deposit-bounded and code-bounded)."%string]); (Variant "add_sub"%string [(Field (Some "sub"%string) 166%N (Some "AccountIdLookupOf<T>"%string) []); (Field (Some "data"%string) 171%N (Some "Data"%string) [])] 11%N ["Add the given account to the sender's subs."%string; ""%string; "Payment: Balance reserved by a previous `set_subs` call for one sub will be repatriated"%string; "to the sender."%string; ""%string; "The dispatch origin for this call must be _Signed_ and the sender must have a registered"%string; "sub identity of `sub`."%string]); (Variant "rename_sub"%string [(Field (Some "sub"%string) 166%N (Some "AccountIdLookupOf<T>"%string) []); (Field (Some "data"%string) 171%N (Some "Data"%string) [])] 12%N ["Alter the associated name of the given sub-account."%string; ""%string; "The dispatch origin for this call must be _Signed_ and the sender must have a registered"%string; "sub identity of `sub`."%string]); (Variant "remove_sub"%string [(Field (Some "sub"%string) 166%N (Some "AccountIdLookupOf<T>"%string) [])] 13%N ["Remove the given account from the sender's subs."%string; ""%string; "Payment: Balance reserved by a previous `set_subs` call for one sub will be repatriated"%string; "to the sender."%string; ""%string; "The dispatch origin for this call must be _Signed_ and the sender must have a registered"%string; "sub identity of `sub`."%string]); (Variant "quit_sub"%string [] 14%N ["Remove the sender as a sub-account."%string; ""%string; "Payment: Balance reserved by a previous `set_subs` call for one sub will be repatriated"%string; "to the sender (*not* the original depositor)."%string; ""%string; "The dispatch origin for this call must be _Signed_ and the sender must have a registered"%string; "super-identity."%string; ""%string; "NOTE: This should not normally be used, but is provided in the case that the non-"%string; "controller of an account is maliciously registered as a sub-account."%string])]) ["Identity pallet declaration."%string]).
Definition md_t166 : ty := (Ty ["sp_runtime"%string; "multiaddress"%string; "MultiAddress"%string] [("AccountId"%string,(Some 0%N)); ("AccountIndex"%string,(Some 32%N))] (TVariant [(Variant "Id"%string [(Field None 0%N (Some "AccountId"%string) [])] 0%N []); (Variant "Index"%string [(Field None 167%N (Some "AccountIndex"%string) [])] 1%N []); (Variant "Raw"%string [(Field None 13%N (Some "Vec<u8>"%string) [])] 2%N []); (Variant "Address32"%string [(Field None 1%N (Some "[u8; 32]"%string) [])] 3%N []); (Variant "Address20"%string [(Field None 48%N (Some "[u8; 20]"%string) [])] 4%N [])]) []).
Definition md_t167 : ty := (Ty [] [] (TCompact 32%N) []).
Definition md_t168 : ty := (Ty ["pallet_identity"%string; "types"%string; "IdentityInfo"%string] [("FieldLimit"%string,None)] (TComposite [(Field (Some "additional"%string) 169%N (Some "BoundedVec<(Data, Data), FieldLimit>"%string) []); (Field (Some "display"%string) 171%N (Some "Data"%string) []); (Field (Some "legal"%string) 171%N (Some "Data"%string) []); (Field (Some "web"%string) 171%N (Some "Data"%string) []); (Field (Some "riot"%string) 171%N (Some "Data"%string) []); (Field (Some "email"%string) 171%N (Some "Data"%string) []); (Field (Some "pgp_fingerprint"%string) 201%N (Some "Option<[u8; 20]>"%string) []); (Field (Some "image"%string) 171%N (Some "Data"%string) []); (Field (Some "twitter"%string) 171%N (Some "Data"%string) [])]) []).
Definition md_t169 : ty := (Ty ["bounded_collections"%string; "bounded_vec"%string; "BoundedVec"%string] [("T"%string,(Some 170%N)); ("S"%string,None)] (TComposite [(Field None 200%N (Some "Vec<T>"%string) [])]) []).
Definition md_t170 : ty := (Ty [] [] (TTuple [171%N; 171%N]) []).
Definition md_t171 : ty := (Ty ["pallet_identity"%string; "types"%string; "Data"%string] [] (TVariant [(Variant "None"%string [] 0%N []); (Variant "Raw0"%string [(Field None 172%N None [])] 1%N []); (Variant "Raw1"%string [(Field None 173%N None [])] 2%N []); (Variant "Raw2"%string [(Field None 174%N None [])] 3%N []); (Variant "Raw3"%string [(Field None 175%N None [])] 4%N []); (Variant "Raw4"%string [(Field None 17%N None [])] 5%N []); (Variant "Raw5"%string [(Field None 176%N None [])] 6%N []); (Variant "Raw6"%string [(Field None 177%N None [])] 7%N []); (Variant "Raw7"%string [(Field None 178%N None [])] 8%N []); (Variant "Raw8"%string [(Field None 82%N None [])] 9%N []); (Variant "Raw9"%string [(Field None 179%N None [])] 10%N []); (Variant "Raw10"%string [(Field None 180%N None [])] 11%N []); (Variant "Raw11"%string [(Field None 181%N None [])] 12%N []); (Variant "Raw12"%string [(Field None 182%N None [])] 13%N []); (Variant "Raw13"%string [(Field None 183%N None [])] 14%N []); (Variant "Raw14"%string [(Field None 184%N None [])] 15%N []); (Variant "Raw15"%string [(Field None 185%N None [])] 16%N []); (Variant "Raw16"%string [(Field None 83%N None [])] 17%N []); (Variant "Raw17"%string [(Field None 186%N None [])] 18%N []); (Variant "Raw18"%string [(Field None 187%N None [])] 19%N []); (Variant "Raw19"%string [(Field None 188%N None [])] 20%N []); (Variant "Raw20"%string [(Field None 48%N None [])] 21%N []); (Variant "Raw21"%string [(Field None 189%N None [])] 22%N []); (Variant "Raw22"%string [(Field None 190%N None [])] 23%N []); (Variant "Raw23"%string [(Field None 191%N None [])] 24%N []); (Variant "Raw24"%string [(Field None 192%N None [])] 25%N []); (Variant "Raw25"%string [(Field None 193%N None [])] 26%N []); (Variant "Raw26"%string [(Field None 194%N None [])] 27%N []); (Variant "Raw27"%string [(Field None 195%N None [])] 28%N []); (Variant "Raw28"%string [(Field None 196%N None [])] 29%N []); (Variant "Raw29"%string [(Field None 197%N None [])] 30%N []); (Variant "Raw30"%string [(Field None 198%N None [])] 31%N []); (Variant "Raw31"%string [(Field None 199%N None [])] 32%N []); (Variant "Raw32"%string [(Field None 1%N None [])] 33%N []); (Variant "BlakeTwo256"%string [(Field None 1%N None [])] 34%N []); (Variant "Sha256"%string [(Field None 1%N None [])] 35%N []); (Variant "Keccak256"%string [(Field None 1%N None [])] 36%N []); (Variant "ShaThree256"%string [(Field None 1%N None [])] 37%N [])]) []).
Definition md_t172 : ty := (Ty [] [] (TArray 0%N 2%N) []).
Definition md_t173 : ty := (Ty [] [] (TArray 1%N 2%N) []).
Definition md_t174 : ty := (Ty [] [] (TArray 2%N 2%N) []).
Definition md_t175 : ty := (Ty [] [] (TArray 3%N 2%N) []).
Definition md_t176 : ty := (Ty [] [] (TArray 5%N 2%N) []).
Definition md_t177 : ty := (Ty [] [] (TArray 6%N 2%N) []).
Definition md_t178 : ty := (Ty [] [] (TArray 7%N 2%N) []).
Definition md_t179 : ty := (Ty [] [] (TArray 9%N 2%N) []).
Definition md_t180 : ty := (Ty [] [] (TArray 10%N 2%N) []).
Definition md_t181 : ty := (Ty [] [] (TArray 11%N 2%N) []).
Definition md_t182 : ty := (Ty [] [] (TArray 12%N 2%N) []).
Definition md_t183 : ty := (Ty [] [] (TArray 13%N 2%N) []).
Definition md_t184 : ty := (Ty [] [] (TArray 14%N 2%N) []).
Definition md_t185 : ty := (Ty [] [] (TArray 15%N 2%N) []).
Definition md_t186 : ty := (Ty [] [] (TArray 17%N 2%N) []).
Definition md_t187 : ty := (Ty [] [] (TArray 18%N 2%N) []).
Definition md_t188 : ty := (Ty [] [] (TArray 19%N 2%N) []).
Definition md_t189 : ty := (Ty [] [] (TArray 21%N 2%N) []).
Definition md_t190 : ty := (Ty [] [] (TArray 22%N 2%N) []).
Definition md_t191 : ty := (Ty [] [] (TArray 23%N 2%N) []).
Definition md_t192 : ty := (Ty [] [] (TArray 24%N 2%N) []).
Definition md_t193 : ty := (Ty [] [] (TArray 25%N 2%N) []).
Definition md_t194 : ty := (Ty [] [] (TArray 26%N 2%N) []).
Definition md_t195 : ty := (Ty [] [] (TArray 27%N 2%N) []).
Definition md_t196 : ty := (Ty [] [] (TArray 28%N 2%N) []).
Definition md_t197 : ty := (Ty [] [] (TArray 29%N 2%N) []).
Definition md_t198 : ty := (Ty [] [] (TArray 30%N 2%N) []).
Definition md_t199 : ty := (Ty [] [] (TArray 31%N 2%N) []).
Definition md_t200 : ty := (Ty [] [] (TSequence 170%N) []).
Definition md_t201 : ty := (Ty ["Option"%string] [("T"%string,(Some 48%N))] (TVariant [(Variant "None"%string [] 0%N []); (Variant "Some"%string [(Field None 48%N None [])] 1%N [])]) []).
Definition md_t202 : ty := (Ty [] [] (TSequence 203%N) []).
Definition md_t203 : ty := (Ty [] [] (TTuple [0%N; 171%N]) []).
Definition md_t204 : ty := (Ty ["pallet_identity"%string; "types"%string; "BitFlags"%string] [("T"%string,(Some 205%N))] (TComposite [(Field None 11%N (Some "IdentityField"%string) [])]) []).
Definition md_t205 : ty := (Ty ["pallet_identity"%string; "types"%string; "IdentityField"%string] [] (TVariant [(Variant "Display"%string [] 1%N []); (Variant "Legal"%string [] 2%N []); (Variant "Web"%string [] 4%N []); (Variant "Riot"%string [] 8%N []); (Variant "Email"%string [] 16%N []); (Variant "PgpFingerprint"%string [] 32%N []); (Variant "Image"%string [] 64%N []); (Variant "Twitter"%string [] 128%N [])]) []).
Definition md_t206 : ty := (Ty ["pallet_identity"%string; "types"%string; "Judgement"%string] [("Balance"%string,(Some 6%N))] (TVariant [(Variant "Unknown"%string [] 0%N []); (Variant "FeePaid"%string [(Field None 6%N (Some "Balance"%string) [])] 1%N []); (Variant "Reasonable"%string [] 2%N []); (Variant "KnownGood"%string [] 3%N []); (Variant "OutOfDate"%string [] 4%N []); (Variant "LowQuality"%string [] 5%N []); (Variant "Erroneous"%string [] 6%N [])]) []).
Definition md_t207 : ty := (Ty ["pallet_timestamp"%string; "pallet"%string; "Call"%string] [("T"%string,None)] (TVariant [(Variant "set"%string [(Field (Some "now"%string) 10%N (Some "T::Moment"%string) [])] 0%N ["Set the current time."%string; ""%string; "This call should be invoked exactly once per block. It will panic at the finalization"%string; "phase, if this call hasn't been invoked by that time."%string; ""%string; "The timestamp should be greater than the previous one by the amount specified by"%string; "`MinimumPeriod`."%string; ""%string; "The dispatch origin for this call must be `Inherent`."%string; ""%string; "## Complexity"%string; "- `O(1)` (Note that implementations of `OnTimestampSet` must also be `O(1)`)"%string; "- 1 storage read and 1 storage mutation (codec `O(1)`). (because of `DidUpdate::take` in"%string; "  `on_finalize`)"%string; "- 1 event handler `on_timestamp_set`. Must be `O(1)`."%string])]) ["Contains one variant per dispatchable that can be called by an extrinsic."%string]).
Definition md_t208 : ty := (Ty ["pallet_multisig"%string; "pallet"%string; "Call"%string] [("T"%string,None)] (TVariant [(Variant "as_multi_threshold_1"%string [(Field (Some "other_signatories"%string) 57%N (Some "Vec<T::AccountId>"%string) []); (Field (Some "call"%string) 164%N (Some "Box<<T as Config>::RuntimeCall>"%string) [])] 0%N ["Immediately dispatch a multi-signature call using a single approval from the caller."%string; ""%string; "The dispatch origin for this call must be _Signed_."%string; ""%string; "- `other_signatories`: The accounts (other than the sender) who are part of the"%string; "multi-signature, but do not participate in the approval process."%string; "- `call`: The call to be executed."%string; ""%string; "Result is equivalent to the dispatched result."%string; ""%string; "## Complexity"%string; "O(Z + C) where Z is the length of the call and C its execution weight."%string]); (Variant "as_multi"%string [(Field (Some "threshold"%string) 38%N (Some "u16"%string) []); (Field (Some "other_signatories"%string) 57%N (Some "Vec<T::AccountId>"%string) []); (Field (Some "maybe_timepoint"%string) 209%N (Some "Option<Timepoint<T::BlockNumber>>"%string) []); (Field (Some "call"%string) 164%N (Some "Box<<T as Config>::RuntimeCall>"%string) []); (Field (Some "max_weight"%string) 9%N (Some "Weight"%string) [])] 1%N ["Register approval for a dispatch to be made from a deterministic composite account if"%string; "approved by a total of `threshold - 1` of `other_signatories`."%string; ""%string; "If there are enough, then dispatch the call."%string; ""%string; "Payment: `DepositBase` will be reserved if this is the first approval, plus"%string; "`threshold` times `DepositFactor`. It is returned once this dispatch happens or"%string; "is cancelled."%string; ""%string; "The dispatch origin for this call must be _Signed_."%string; ""%string; "- `threshold`: The total number of approvals for this dispatch before it is executed."%string; "- `other_signatories`: The accounts (other than the sender) who can approve this"%string; "dispatch. May not be empty."%string; "- `maybe_timepoint`: If this is the first approval, then this must be `None`. If it is"%string; "not the first approval, then it must be `Some`, with the timepoint (block number and"%string; "transaction index) of the first approval transaction."%string; "- `call`: The call to be executed."%string; ""%string; "NOTE: Unless this is the final approval, you will generally want to use"%string; "`approve_as_multi` instead, since it only requires a hash of the call."%string; ""%string; "Result is equivalent to the dispatched result if `threshold` is exactly `1`. Otherwise"%string; "on success, result is `Ok` and the result from the interior call, if it was executed,"%string; "may be found in the deposited `MultisigExecuted` event."%string; ""%string; "## Complexity"%string; "- `O(S + Z + Call)`."%string; "- Up to one balance-reserve or unreserve operation."%string; "- One passthrough operation, one insert, both `O(S)` where `S` is the number of"%string; "  signatories. `S` is capped by `MaxSignatories`, with weight being proportional."%string; "- One call encode & hash, both of complexity `O(Z)` where `Z` is tx-len."%string; "- One encode & hash, both of complexity `O(S)`."%string; "- Up to one binary search and insert (`O(logS + S)`)."%string; "- I/O: 1 read `O(S)`, up to 1 mutate `O(S)`. Up to one remove."%string; "- One event."%string; "- The weight of the `call`."%string; "- Storage: inserts one item, value size bounded by `MaxSignatories`, with a deposit"%string; "  taken for its lifetime of `DepositBase + threshold * DepositFactor`."%string]); (Variant "approve_as_multi"%string [(Field (Some "threshold"%string) 38%N (Some "u16"%string) []); (Field (Some "other_signatories"%string) 57%N (Some "Vec<T::AccountId>"%string) []); (Field (Some "maybe_timepoint"%string) 209%N (Some "Option<Timepoint<T::BlockNumber>>"%string) []); (Field (Some "call_hash"%string) 1%N (Some "[u8; 32]"%string) []); (Field (Some "max_weight"%string) 9%N (Some "Weight"%string) [])] 2%N ["Register approval for a dispatch to be made from a deterministic composite account if"%string; "approved by a total of `threshold - 1` of `other_signatories`."%string; ""%string; "Payment: `DepositBase` will be reserved if this is the first approval, plus"%string; "`threshold` times `DepositFactor`. It is returned once this dispatch happens or"%string; "is cancelled."%string; ""%string; "The dispatch origin for this call must be _Signed_."%string; ""%string; "- `threshold`: The total number of approvals for this dispatch before it is executed."%string; "- `other_signatories`: The accounts (other than the sender) who can approve this"%string; "dispatch. May not be empty."%string; "- `maybe_timepoint`: If this is the first approval, then this must be `None`. If it is"%string; "not the first approval, then it must be `Some`, with the timepoint (block number and"%string; "transaction index) of the first approval transaction."%string; "- `call_hash`: The hash of the call to be executed."%string; ""%string; "NOTE: If this is the final approval, you will want to use `as_multi` instead."%string; ""%string; "## Complexity"%string; "- `O(S)`."%string; "- Up to one balance-reserve or unreserve operation."%string; "- One passthrough operation, one insert, both `O(S)` where `S` is the number of"%string; "  signatories. `S` is capped by `MaxSignatories`, with weight being proportional."%string; "- One encode & hash, both of complexity `O(S)`."%string; "- Up to one binary search and insert (`O(logS + S)`)."%string; "- I/O: 1 read `O(S)`, up to 1 mutate `O(S)`. Up to one remove."%string; "- One event."%string; "- Storage: inserts one item, value size bounded by `MaxSignatories`, with a deposit"%string; "  taken for its lifetime of `DepositBase + threshold * DepositFactor`."%string]); (Variant "cancel_as_multi"%string [(Field (Some "threshold"%string) 38%N (Some "u16"%string) []); (Field (Some "other_signatories"%string) 57%N (Some "Vec<T::AccountId>"%string) []); (Field (Some "timepoint"%string) 35%N (Some "Timepoint<T::BlockNumber>"%string) []); (Field (Some "call_hash"%string) 1%N (Some "[u8; 32]"%string) [])] 3%N ["Cancel a pre-existing, on-going multisig transaction. Any deposit reserved previously"%string; "for this operation will be unreserved on success."%string; ""%string; "The dispatch origin for this call must be _Signed_."%string; ""%string; "- `threshold`: The total number of approvals for this dispatch before it is executed."%string; "- `other_signatories`: The accounts (other than the sender) who can approve this"%string; "dispatch. May not be empty."%string; "- `timepoint`: The timepoint (block number and transaction index) of the first approval"%string; "transaction for this dispatch."%string; "- `call_hash`: The hash of the call to be executed."%string; ""%string; "## Complexity"%string; "- `O(S)`."%string; "- Up to one balance-reserve or unreserve operation."%string; "- One passthrough operation, one insert, both `O(S)` where `S` is the number of"%string; "  signatories. `S` is capped by `MaxSignatories`, with weight being proportional."%string; "- One encode & hash, both of complexity `O(S)`."%string; "- One event."%string; "- I/O: 1 read `O(S)`, one remove."%string; "- Storage: removes one item."%string])]) ["Contains one variant per dispatchable that can be called by an extrinsic."%string]).
Definition md_t209 : ty := (Ty ["Option"%string] [("T"%string,(Some 35%N))] (TVariant [(Variant "None"%string [] 0%N []); (Variant "Some"%string [(Field None 35%N None [])] 1%N [])]) []).
Definition md_t210 : ty := (Ty ["pallet_proxy"%string; "pallet"%string; "Call"%string] [("T"%string,None)] (TVariant [(Variant "proxy"%string [(Field (Some "real"%string) 166%N (Some "AccountIdLookupOf<T>"%string) []); (Field (Some "force_proxy_type"%string) 211%N (Some "Option<T::ProxyType>"%string) []); (Field (Some "call"%string) 164%N (Some "Box<<T as Config>::RuntimeCall>"%string) [])] 0%N ["Dispatch the given `call` from an account that the sender is authorised for through"%string; "`add_proxy`."%string; ""%string; "The dispatch origin for this call must be _Signed_."%string; ""%string; "Parameters:"%string; "- `real`: The account that the proxy will make a call on behalf of."%string; "- `force_proxy_type`: Specify the exact proxy type to be used and checked for this call."%string; "- `call`: The call to be made by the `real` account."%string]); (Variant "add_proxy"%string [(Field (Some "delegate"%string) 166%N (Some "AccountIdLookupOf<T>"%string) []); (Field (Some "proxy_type"%string) 37%N (Some "T::ProxyType"%string) []); (Field (Some "delay"%string) 4%N (Some "T::BlockNumber"%string) [])] 1%N ["Register a proxy account for the sender that is able to make calls on its behalf."%string; ""%string; "The dispatch origin for this call must be _Signed_."%string; ""%string; "Parameters:"%string; "- `proxy`: The account that the `caller` would like to make a proxy."%string; "- `proxy_type`: The permissions allowed for this proxy account."%string; "- `delay`: The announcement period required of the initial proxy. Will generally be"%string; "zero."%string]); (Variant "remove_proxy"%string [(Field (Some "delegate"%string) 166%N (Some "AccountIdLookupOf<T>"%string) []); (Field (Some "proxy_type"%string) 37%N (Some "T::ProxyType"%string) []); (Field (Some "delay"%string) 4%N (Some "T::BlockNumber"%string) [])] 2%N ["Unregister a proxy account for the sender."%string; ""%string; "The dispatch origin for this call must be _Signed_."%string; ""%string; "Parameters:"%string; "- `proxy`: The account that the `caller` would like to remove as a proxy."%string; "- `proxy_type`: The permissions currently enabled for the removed proxy account."%string]); (Variant "remove_proxies"%string [] 3%N ["Unregister all proxy accounts for the sender."%string; ""%string; "The dispatch origin for this call must be _Signed_."%string; ""%string; "WARNING: This may be called on accounts created by `pure`, however if done, then"%string; "the unreserved fees will be inaccessible. **All access to this account will be lost.**"%string]); (Variant "create_pure"%string [(Field (Some "proxy_type"%string) 37%N (Some "T::ProxyType"%string) []); (Field (Some "delay"%string) 4%N (Some "T::BlockNumber"%string) []); (Field (Some "index"%string) 38%N (Some "u16"%string) [])] 4%N ["Spawn a fresh new account that is guaranteed to be otherwise inaccessible, and"%string; "initialize it with a proxy of `proxy_type` for `origin` sender."%string; ""%string; "Requires a `Signed` origin."%string; ""%string; "- `proxy_type`: The type of the proxy that the sender will be registered as over the"%string; "new account. This will almost always be the most permissive `ProxyType` possible to"%string; "allow for maximum flexibility."%string; "- `index`: A disambiguation index, in case this is called multiple times in the same"%string; "transaction (e.g. with `utility::batch`). Unless you're using `batch` you probably just"%string; "want to use `0`."%string; "- `delay`: The announcement period required of the initial proxy. Will generally be"%string; "zero."%string; ""%string; "Fails with `Duplicate` if this has already been called in this transaction, from the"%string; "same sender, with the same parameters."%string; ""%string; "Fails if there are insufficient funds to pay for deposit."%string]); (Variant "kill_pure"%string [(Field (Some "spawner"%string) 166%N (Some "AccountIdLookupOf<T>"%string) []); (Field (Some "proxy_type"%string) 37%N (Some "T::ProxyType"%string) []); (Field (Some "index"%string) 38%N (Some "u16"%string) []); (Field (Some "height"%string) 67%N (Some "T::BlockNumber"%string) []); (Field (Some "ext_index"%string) 67%N (Some "u32"%string) [])] 5%N ["Removes a previously spawned pure proxy."%string; ""%string; "WARNING: **All access to this account will be lost.** Any funds held in it will be"%string; "inaccessible."%string; ""%string; "Requires a `Signed` origin, and the sender account must have been created by a call to"%string; "`pure` with corresponding parameters."%string; ""%string; "- `spawner`: The account that originally called `pure` to create this account."%string; "- `index`: The disambiguation index originally passed to `pure`. Probably `0`."%string; "- `proxy_type`: The proxy type originally passed to `pure`."%string; "- `height`: The height of the chain when the call to `pure` was processed."%string; "- `ext_index`: The extrinsic index in which the call to `pure` was processed."%string; ""%string; "Fails with `NoPermission` in case the caller is not a previously created pure"%string; "account whose `pure` call has corresponding parameters."%string]); (Variant "announce"%string [(Field (Some "real"%string) 166%N (Some "AccountIdLookupOf<T>"%string) []); (Field (Some "call_hash"%string) 12%N (Some "CallHashOf<T>"%string) [])] 6%N ["Publish the hash of a proxy-call that will be made in the future."%string; ""%string; "This must be called some number of blocks before the corresponding `proxy` is attempted"%string; "if the delay associated with the proxy relationship is greater than zero."%string; ""%string; "No more than `MaxPending` announcements may be made at any one time."%string; ""%string; "This will take a deposit of `AnnouncementDepositFactor` as well as"%string; "`AnnouncementDepositBase` if there are no other pending announcements."%string; ""%string; "The dispatch origin for this call must be _Signed_ and a proxy of `real`."%string; ""%string; "Parameters:"%string; "- `real`: The account that the proxy will make a call on behalf of."%string; "- `call_hash`: The hash of the call to be made by the `real` account."%string]); (Variant "remove_announcement"%string [(Field (Some "real"%string) 166%N (Some "AccountIdLookupOf<T>"%string) []); (Field (Some "call_hash"%string) 12%N (Some "CallHashOf<T>"%string) [])] 7%N ["Remove a given announcement."%string; ""%string; "May be called by a proxy account to remove a call they previously announced and return"%string; "the deposit."%string; ""%string; "The dispatch origin for this call must be _Signed_."%string; ""%string; "Parameters:"%string; "- `real`: The account that the proxy will make a call on behalf of."%string; "- `call_hash`: The hash of the call to be made by the `real` account."%string]); (Variant "reject_announcement"%string [(Field (Some "delegate"%string) 166%N (Some "AccountIdLookupOf<T>"%string) []); (Field (Some "call_hash"%string) 12%N (Some "CallHashOf<T>"%string) [])] 8%N ["Remove the given announcement of a delegate."%string; ""%string; "May be called by a target (proxied) account to remove a call that one of their delegates"%string; "(`delegate`) has announced they want to execute. The deposit is returned."%string; ""%string; "The dispatch origin for this call must be _Signed_."%string; ""%string; "Parameters:"%string; "- `delegate`: The account that previously announced the call."%string; "- `call_hash`: The hash of the call to be made."%string]); (Variant "proxy_announced"%string [(Field (Some "delegate"%string) 166%N (Some "AccountIdLookupOf<T>"%string) []); (Field (Some "real"%string) 166%N (Some "AccountIdLookupOf<T>"%string) []); (Field (Some "force_proxy_type"%string) 211%N (Some "Option<T::ProxyType>"%string) []); (Field (Some "call"%string) 164%N (Some "Box<<T as Config>::RuntimeCall>"%string) [])] 9%N ["Dispatch the given `call` from an account that the sender is authorized for through"%string; "`add_proxy`."%string; ""%string; "Removes any corresponding announcement(s)."%string; ""%string; "The dispatch origin for this call must be _Signed_."%string; ""%string; "Parameters:"%string; "- `real`: The account that the proxy will make a call on behalf of."%string; "- `force_proxy_type`: Specify the exact proxy type to be used and checked for this call."%string; "- `call`: The call to be made by the `real` account."%string])]) ["Contains one variant per dispatchable that can be called by an extrinsic."%string]).
Definition md_t211 : ty := (Ty ["Option"%string] [("T"%string,(Some 37%N))] (TVariant [(Variant "None"%string [] 0%N []); (Variant "Some"%string [(Field None 37%N None [])] 1%N [])]) []).
Definition md_t212 : ty := (Ty ["cumulus_pallet_parachain_system"%string; "pallet"%string; "Call"%string] [("T"%string,None)] (TVariant [(Variant "set_validation_data"%string [(Field (Some "data"%string) 213%N (Some "ParachainInherentData"%string) [])] 0%N ["Set the current validation data."%string; ""%string; "This should be invoked exactly once per block. It will panic at the finalization"%string; "phase if the call was not invoked."%string; ""%string; "The dispatch origin for this call must be `Inherent`"%string; ""%string; "As a side effect, this function upgrades the current validation function"%string; "if the appropriate time has come."%string]); (Variant "sudo_send_upward_message"%string [(Field (Some "message"%string) 13%N (Some "UpwardMessage"%string) [])] 1%N []); (Variant "authorize_upgrade"%string [(Field (Some "code_hash"%string) 12%N (Some "T::Hash"%string) []); (Field (Some "check_version"%string) 49%N (Some "bool"%string) [])] 2%N ["Authorize an upgrade to a given `code_hash` for the runtime. The runtime can be supplied"%string; "later."%string; ""%string; "The `check_version` parameter sets a boolean flag for whether or not the runtime's spec"%string; "version and name should be verified on upgrade. Since the authorization only has a hash,"%string; "it cannot actually perform the verification."%string; ""%string; "This call requires Root origin."%string]); (Variant "enact_authorized_upgrade"%string [(Field (Some "code"%string) 13%N (Some "Vec<u8>"%string) [])] 3%N ["Provide the preimage (runtime binary) `code` for an upgrade that has been authorized."%string; ""%string; "If the authorization required a version check, this call will ensure the spec name"%string; "remains unchanged and that the spec version has increased."%string; ""%string; "Note that this function will not apply the new `code`, but only attempt to schedule the"%string; "upgrade with the Relay Chain."%string; ""%string; "All origins are allowed."%string])]) ["Contains one variant per dispatchable that can be called by an extrinsic."%string]).
Definition md_t213 : ty := (Ty ["cumulus_primitives_parachain_inherent"%string; "ParachainInherentData"%string] [] (TComposite [(Field (Some "validation_data"%string) 214%N (Some "PersistedValidationData"%string) []); (Field (Some "relay_chain_state"%string) 216%N (Some "sp_trie::StorageProof"%string) []); (Field (Some "downward_messages"%string) 218%N (Some "Vec<InboundDownwardMessage>"%string) []); (Field (Some "horizontal_messages"%string) 220%N (Some "BTreeMap<ParaId, Vec<InboundHrmpMessage>>"%string) [])]) []).
Definition md_t214 : ty := (Ty ["polkadot_primitives"%string; "v4"%string; "PersistedValidationData"%string] [("H"%string,(Some 12%N)); ("N"%string,(Some 4%N))] (TComposite [(Field (Some "parent_head"%string) 215%N (Some "HeadData"%string) []); (Field (Some "relay_parent_number"%string) 4%N (Some "N"%string) []); (Field (Some "relay_parent_storage_root"%string) 12%N (Some "H"%string) []); (Field (Some "max_pov_size"%string) 4%N (Some "u32"%string) [])]) []).
Definition md_t215 : ty := (Ty ["polkadot_parachain"%string; "primitives"%string; "HeadData"%string] [] (TComposite [(Field None 13%N (Some "Vec<u8>"%string) [])]) []).
Definition md_t216 : ty := (Ty ["sp_trie"%string; "storage_proof"%string; "StorageProof"%string] [] (TComposite [(Field (Some "trie_nodes"%string) 217%N (Some "BTreeSet<Vec<u8>>"%string) [])]) []).
Definition md_t217 : ty := (Ty ["BTreeSet"%string] [("T"%string,(Some 13%N))] (TComposite [(Field None 149%N None [])]) []).
Definition md_t218 : ty := (Ty [] [] (TSequence 219%N) []).
Definition md_t219 : ty := (Ty ["polkadot_core_primitives"%string; "InboundDownwardMessage"%string] [("BlockNumber"%string,(Some 4%N))] (TComposite [(Field (Some "sent_at"%string) 4%N (Some "BlockNumber"%string) []); (Field (Some "msg"%string) 13%N (Some "DownwardMessage"%string) [])]) []).
Definition md_t220 : ty := (Ty ["BTreeMap"%string] [("K"%string,(Some 61%N)); ("V"%string,(Some 221%N))] (TComposite [(Field None 223%N None [])]) []).
Definition md_t221 : ty := (Ty [] [] (TSequence 222%N) []).
Definition md_t222 : ty := (Ty ["polkadot_core_primitives"%string; "InboundHrmpMessage"%string] [("BlockNumber"%string,(Some 4%N))] (TComposite [(Field (Some "sent_at"%string) 4%N (Some "BlockNumber"%string) []); (Field (Some "data"%string) 13%N (Some "sp_std::vec::Vec<u8>"%string) [])]) []).
Definition md_t223 : ty := (Ty [] [] (TSequence 224%N) []).
Definition md_t224 : ty := (Ty [] [] (TTuple [61%N; 221%N]) []).
Definition md_t225 : ty := (Ty ["parachain_info"%string; "pallet"%string; "Call"%string] [("T"%string,None)] (TVariant []) ["Contains one variant per dispatchable that can be called by an extrinsic."%string]).
Definition md_t226 : ty := (Ty ["pallet_balances"%string; "pallet"%string; "Call"%string] [("T"%string,None); ("I"%string,None)] (TVariant [(Variant "transfer_allow_death"%string [(Field (Some "dest"%string) 166%N (Some "AccountIdLookupOf<T>"%string) []); (Field (Some "value"%string) 70%N (Some "T::Balance"%string) [])] 0%N ["Transfer some liquid free balance to another account."%string; ""%string; "`transfer_allow_death` will set the `FreeBalance` of the sender and receiver."%string; "If the sender's account is below the existential deposit as a result"%string; "of the transfer, the account will be reaped."%string; ""%string; "The dispatch origin for this call must be `Signed` by the transactor."%string]); (Variant "set_balance_deprecated"%string [(Field (Some "who"%string) 166%N (Some "AccountIdLookupOf<T>"%string) []); (Field (Some "new_free"%string) 70%N (Some "T::Balance"%string) []); (Field (Some "old_reserved"%string) 70%N (Some "T::Balance"%string) [])] 1%N ["Set the regular balance of a given account; it also takes a reserved balance but this"%string; "must be the same as the account's current reserved balance."%string; ""%string; "The dispatch origin for this call is `root`."%string; ""%string; "WARNING: This call is DEPRECATED! Use `force_set_balance` instead."%string]); (Variant "force_transfer"%string [(Field (Some "source"%string) 166%N (Some "AccountIdLookupOf<T>"%string) []); (Field (Some "dest"%string) 166%N (Some "AccountIdLookupOf<T>"%string) []); (Field (Some "value"%string) 70%N (Some "T::Balance"%string) [])] 2%N ["Exactly as `transfer_allow_death`, except the origin must be root and the source account"%string; "may be specified."%string]); (Variant "transfer_keep_alive"%string [(Field (Some "dest"%string) 166%N (Some "AccountIdLookupOf<T>"%string) []); (Field (Some "value"%string) 70%N (Some "T::Balance"%string) [])] 3%N ["Same as the [`transfer_allow_death`] call, but with a check that the transfer will not"%string; "kill the origin account."%string; ""%string; "99% of the time you want [`transfer_allow_death`] instead."%string; ""%string; "[`transfer_allow_death`]: struct.Pallet.html#method.transfer"%string]); (Variant "transfer_all"%string [(Field (Some "dest"%string) 166%N (Some "AccountIdLookupOf<T>"%string) []); (Field (Some "keep_alive"%string) 49%N (Some "bool"%string) [])] 4%N ["Transfer the entire transferable balance from the caller account."%string; ""%string; "NOTE: This function only attempts to transfer _transferable_ balances. This means that"%string; "any locked, reserved, or existential deposits (when `keep_alive` is `true`), will not be"%string; "transferred by this function. To ensure that this function results in a killed account,"%string; "you might need to prepare the account by removing any reference counters, storage"%string; "deposits, etc..."%string; ""%string; "The dispatch origin of this call must be Signed."%string; ""%string; "- `dest`: The recipient of the transfer."%string; "- `keep_alive`: A boolean to determine if the `transfer_all` operation should send all"%string; "  of the funds the account has, causing the sender account to be killed (false), or"%string; "  transfer everything except at least the existential deposit, which will guarantee to"%string; "  keep the sender account alive (true)."%string]); (Variant "force_unreserve"%string [(Field (Some "who"%string) 166%N (Some "AccountIdLookupOf<T>"%string) []); (Field (Some "amount"%string) 6%N (Some "T::Balance"%string) [])] 5%N ["Unreserve some balance from a user by force."%string; ""%string; "Can only be called by ROOT."%string]); (Variant "upgrade_accounts"%string [(Field (Some "who"%string) 57%N (Some "Vec<T::AccountId>"%string) [])] 6%N ["Upgrade a specified account."%string; ""%string; "- `origin`: Must be `Signed`."%string; "- `who`: The account to be upgraded."%string; ""%string; "This will waive the transaction fee if at least all but 10% of the accounts needed to"%string; "be upgraded. (We let some not have to be upgraded just in order to allow for the"%string; "possibililty of churn)."%string]); (Variant "transfer"%string [(Field (Some "dest"%string) 166%N (Some "AccountIdLookupOf<T>"%string) []); (Field (Some "value"%string) 70%N (Some "T::Balance"%string) [])] 7%N ["Alias for `transfer_allow_death`, provided only for name-wise compatibility."%string; ""%string; "WARNING: DEPRECATED! Will be released in approximately 3 months."%string]); (Variant "force_set_balance"%string [(Field (Some "who"%string) 166%N (Some "AccountIdLookupOf<T>"%string) []); (Field (Some "new_free"%string) 70%N (Some "T::Balance"%string) [])] 8%N ["Set the regular balance of a given account."%string; ""%string; "The dispatch origin for this call is `root`."%string])]) ["Contains one variant per dispatchable that can be called by an extrinsic."%string]).
Definition md_t227 : ty := (Ty ["pallet_vesting"%string; "pallet"%string; "Call"%string] [("T"%string,None)] (TVariant [(Variant "vest"%string [] 0%N ["Unlock any vested funds of the sender account."%string; ""%string; "The dispatch origin for this call must be _Signed_ and the sender must have funds still"%string; "locked under this pallet."%string; ""%string; "Emits either `VestingCompleted` or `VestingUpdated`."%string; ""%string; "## Complexity"%string; "- `O(1)`."%string]); (Variant "vest_other"%string [(Field (Some "target"%string) 166%N (Some "AccountIdLookupOf<T>"%string) [])] 1%N ["Unlock any vested funds of a `target` account."%string; ""%string; "The dispatch origin for this call must be _Signed_."%string; ""%string; "- `target`: The account whose vested funds should be unlocked. Must have funds still"%string; "locked under this pallet."%string; ""%string; "Emits either `VestingCompleted` or `VestingUpdated`."%string; ""%string; "## Complexity"%string; "- `O(1)`."%string]); (Variant "vested_transfer"%string [(Field (Some "target"%string) 166%N (Some "AccountIdLookupOf<T>"%string) []); (Field (Some "schedule"%string) 228%N (Some "VestingInfo<BalanceOf<T>, T::BlockNumber>"%string) [])] 2%N ["Create a vested transfer."%string; ""%string; "The dispatch origin for this call must be _Signed_."%string; ""%string; "- `target`: The account receiving the vested funds."%string; "- `schedule`: The vesting schedule attached to the transfer."%string; ""%string; "Emits `VestingCreated`."%string; ""%string; "NOTE: This will unlock all schedules through the current block."%string; ""%string; "## Complexity"%string; "- `O(1)`."%string]); (Variant "force_vested_transfer"%string [(Field (Some "source"%string) 166%N (Some "AccountIdLookupOf<T>"%string) []); (Field (Some "target"%string) 166%N (Some "AccountIdLookupOf<T>"%string) []); (Field (Some "schedule"%string) 228%N (Some "VestingInfo<BalanceOf<T>, T::BlockNumber>"%string) [])] 3%N ["Force a vested transfer."%string; ""%string; "The dispatch origin for this call must be _Root_."%string; ""%string; "- `source`: The account whose funds should be transferred."%string; "- `target`: The account that should be transferred the vested funds."%string; "- `schedule`: The vesting schedule attached to the transfer."%string; ""%string; "Emits `VestingCreated`."%string; ""%string; "NOTE: This will unlock all schedules through the current block."%string; ""%string; "## Complexity"%string; "- `O(1)`."%string]); (Variant "merge_schedules"%string [(Field (Some "schedule1_index"%string) 4%N (Some "u32"%string) []); (Field (Some "schedule2_index"%string) 4%N (Some "u32"%string) [])] 4%N ["Merge two vesting schedules together, creating a new vesting schedule that unlocks over"%string; "the highest possible start and end blocks. If both schedules have already started the"%string; "current block will be used as the schedule start; with the caveat that if one schedule"%string; "is finished by the current block, the other will be treated as the new merged schedule,"%string; "unmodified."%string; ""%string; "NOTE: If `schedule1_index == schedule2_index` this is a no-op."%string; "NOTE: This will unlock all schedules through the current block prior to merging."%string; "NOTE: If both schedules have ended by the current block, no new schedule will be created"%string; "and both will be removed."%string; ""%string; "Merged schedule attributes:"%string; "- `starting_block`: `MAX(schedule1.starting_block, scheduled2.starting_block,"%string; "  current_block)`."%string; "- `ending_block`: `MAX(schedule1.ending_block, schedule2.ending_block)`."%string; "- `locked`: `schedule1.locked_at(current_block) + schedule2.locked_at(current_block)`."%string; ""%string; "The dispatch origin for this call must be _Signed_."%string; ""%string; "- `schedule1_index`: index of the first schedule to merge."%string; "- `schedule2_index`: index of the second schedule to merge."%string])]) ["Contains one variant per dispatchable that can be called by an extrinsic."%string]).
Definition md_t228 : ty := (Ty ["pallet_vesting"%string; "vesting_info"%string; "VestingInfo"%string] [("Balance"%string,(Some 6%N)); ("BlockNumber"%string,(Some 4%N))] (TComposite [(Field (Some "locked"%string) 6%N (Some "Balance"%string) []); (Field (Some "per_block"%string) 6%N (Some "Balance"%string) []); (Field (Some "starting_block"%string) 4%N (Some "BlockNumber"%string) [])]) []).
Definition md_t229 : ty := (Ty ["pallet_dapps_staking"%string; "pallet"%string; "pallet"%string; "Call"%string] [("T"%string,None)] (TVariant [(Variant "register"%string [(Field (Some "developer"%string) 0%N (Some "T::AccountId"%string) []); (Field (Some "contract_id"%string) 46%N (Some "T::SmartContract"%string) [])] 0%N ["Used to register contract for dapps staking."%string; "The origin account used is treated as the `developer` account."%string; ""%string; "Depending on the pallet configuration/state it is possible that developer needs to be whitelisted prior to registration."%string; ""%string; "As part of this call, `RegisterDeposit` will be reserved from devs account."%string]); (Variant "unregister"%string [(Field (Some "contract_id"%string) 46%N (Some "T::SmartContract"%string) [])] 1%N ["Unregister existing contract from dapps staking, making it ineligible for rewards from current era onwards."%string; "This must be called by the root (at the moment)."%string; ""%string; "Deposit is returned to the developer but existing stakers should manually call `withdraw_from_unregistered` if they wish to to unstake."%string; ""%string; "**Warning**: After this action ,contract can not be registered for dapps staking again."%string]); (Variant "withdraw_from_unregistered"%string [(Field (Some "contract_id"%string) 46%N (Some "T::SmartContract"%string) [])] 2%N ["Withdraw locked funds from a contract that was unregistered."%string; ""%string; "Funds don't need to undergo the unbonding period - they are returned immediately to the staker's free balance."%string]); (Variant "bond_and_stake"%string [(Field (Some "contract_id"%string) 46%N (Some "T::SmartContract"%string) []); (Field (Some "value"%string) 70%N (Some "Balance"%string) [])] 3%N ["Lock up and stake balance of the origin account."%string; ""%string; "`value` must be more than the `minimum_balance` specified by `MinimumStakingAmount`"%string; "unless account already has bonded value equal or more than 'minimum_balance'."%string; ""%string; "The dispatch origin for this call must be _Signed_ by the staker's account."%string]); (Variant "unbond_and_unstake"%string [(Field (Some "contract_id"%string) 46%N (Some "T::SmartContract"%string) []); (Field (Some "value"%string) 70%N (Some "Balance"%string) [])] 4%N ["Start unbonding process and unstake balance from the contract."%string; ""%string; "The unstaked amount will no longer be eligible for rewards but still won't be unlocked."%string; "User needs to wait for the unbonding period to finish before being able to withdraw"%string; "the funds via `withdraw_unbonded` call."%string; ""%string; "In case remaining staked balance on contract is below minimum staking amount,"%string; "entire stake for that contract will be unstaked."%string]); (Variant "withdraw_unbonded"%string [] 5%N ["Withdraw all funds that have completed the unbonding process."%string; ""%string; "If there are unbonding chunks which will be fully unbonded in future eras,"%string; "they will remain and can be withdrawn later."%string]); (Variant "nomination_transfer"%string [(Field (Some "origin_contract_id"%string) 46%N (Some "T::SmartContract"%string) []); (Field (Some "value"%string) 70%N (Some "Balance"%string) []); (Field (Some "target_contract_id"%string) 46%N (Some "T::SmartContract"%string) [])] 6%N ["Transfer nomination from one contract to another."%string; ""%string; "Same rules as for `bond_and_stake` and `unbond_and_unstake` apply."%string; "Minor difference is that there is no unbonding period so this call won't"%string; "check whether max number of unbonding chunks is exceeded."%string; ""%string]); (Variant "claim_staker"%string [(Field (Some "contract_id"%string) 46%N (Some "T::SmartContract"%string) [])] 7%N ["Claim earned staker rewards for the oldest unclaimed era."%string; "In order to claim multiple eras, this call has to be called multiple times."%string; ""%string; "The rewards are always added to the staker's free balance (account) but depending on the reward destination configuration,"%string; "they might be immediately re-staked."%string]); (Variant "claim_dapp"%string [(Field (Some "contract_id"%string) 46%N (Some "T::SmartContract"%string) []); (Field (Some "era"%string) 67%N (Some "EraIndex"%string) [])] 8%N ["Claim earned dapp rewards for the specified era."%string; ""%string; "Call must ensure that the specified era is eligible for reward payout and that it hasn't already been paid out for the dapp."%string]); (Variant "force_new_era"%string [] 9%N ["Force a new era at the start of the next block."%string; ""%string; "The dispatch origin must be Root."%string]); (Variant "maintenance_mode"%string [(Field (Some "enable_maintenance"%string) 49%N (Some "bool"%string) [])] 10%N ["`true` will disable pallet, enabling maintenance mode. `false` will do the opposite."%string; ""%string; "The dispatch origin must be Root."%string]); (Variant "set_reward_destination"%string [(Field (Some "reward_destination"%string) 50%N (Some "RewardDestination"%string) [])] 11%N ["Used to set reward destination for staker rewards."%string; ""%string; "User must be an active staker in order to use this call."%string; "This will apply to all existing unclaimed rewards."%string]); (Variant "set_contract_stake_info"%string [(Field (Some "contract"%string) 46%N (Some "T::SmartContract"%string) []); (Field (Some "era"%string) 4%N (Some "EraIndex"%string) []); (Field (Some "contract_stake_info"%string) 230%N (Some "ContractStakeInfo"%string) [])] 12%N ["Used to force set `ContractEraStake` storage values."%string; "The purpose of this call is only for fixing one of the issues detected with dapps-staking."%string; ""%string; "The dispatch origin must be Root."%string]); (Variant "burn_stale_reward"%string [(Field (Some "contract_id"%string) 46%N (Some "T::SmartContract"%string) []); (Field (Some "era"%string) 67%N (Some "EraIndex"%string) [])] 13%N ["Used to burn unclaimed & stale rewards from an unregistered contract."%string])]) ["Contains one variant per dispatchable that can be called by an extrinsic."%string]).
Definition md_t230 : ty := (Ty ["pallet_dapps_staking"%string; "ContractStakeInfo"%string] [] (TComposite [(Field (Some "total"%string) 70%N (Some "Balance"%string) []); (Field (Some "number_of_stakers"%string) 67%N (Some "u32"%string) []); (Field (Some "contract_reward_claimed"%string) 49%N (Some "bool"%string) [])]) []).
Definition md_t231 : ty := (Ty ["pallet_block_reward"%string; "pallet"%string; "Call"%string] [("T"%string,None)] (TVariant [(Variant "set_configuration"%string [(Field (Some "reward_distro_params"%string) 52%N (Some "RewardDistributionConfig"%string) [])] 0%N ["Sets the reward distribution configuration parameters which will be used from next block reward distribution."%string; ""%string; "It is mandatory that all components of configuration sum up to one whole (**100%**),"%string; "otherwise an error `InvalidDistributionConfiguration` will be raised."%string; ""%string; "- `reward_distro_params` - reward distribution params"%string; ""%string; "Emits `DistributionConfigurationChanged` with config embeded into event itself."%string; ""%string])]) ["Contains one variant per dispatchable that can be called by an extrinsic."%string]).
Definition md_t232 : ty := (Ty ["pallet_assets"%string; "pallet"%string; "Call"%string] [("T"%string,None); ("I"%string,None)] (TVariant [(Variant "create"%string [(Field (Some "id"%string) 70%N (Some "T::AssetIdParameter"%string) []); (Field (Some "admin"%string) 166%N (Some "AccountIdLookupOf<T>"%string) []); (Field (Some "min_balance"%string) 6%N (Some "T::Balance"%string) [])] 0%N ["Issue a new class of fungible assets from a public origin."%string; ""%string; "This new asset class has no assets initially and its owner is the origin."%string; ""%string; "The origin must conform to the configured `CreateOrigin` and have sufficient funds free."%string; ""%string; "Funds of sender are reserved by `AssetDeposit`."%string; ""%string; "Parameters:"%string; "- `id`: The identifier of the new asset. This must not be currently in use to identify"%string; "an existing asset."%string; "- `admin`: The admin of this class of assets. The admin is the initial address of each"%string; "member of the asset class's admin team."%string; "- `min_balance`: The minimum balance of this new asset that any single account must"%string; "have. If an account's balance is reduced below this, then it collapses to zero."%string; ""%string; "Emits `Created` event when successful."%string; ""%string; "Weight: `O(1)`"%string]); (Variant "force_create"%string [(Field (Some "id"%string) 70%N (Some "T::AssetIdParameter"%string) []); (Field (Some "owner"%string) 166%N (Some "AccountIdLookupOf<T>"%string) []); (Field (Some "is_sufficient"%string) 49%N (Some "bool"%string) []); (Field (Some "min_balance"%string) 70%N (Some "T::Balance"%string) [])] 1%N ["Issue a new class of fungible assets from a privileged origin."%string; ""%string; "This new asset class has no assets initially."%string; ""%string; "The origin must conform to `ForceOrigin`."%string; ""%string; "Unlike `create`, no funds are reserved."%string; ""%string; "- `id`: The identifier of the new asset. This must not be currently in use to identify"%string; "an existing asset."%string; "- `owner`: The owner of this class of assets. The owner has full superuser permissions"%string; "over this asset, but may later change and configure the permissions using"%string; "`transfer_ownership` and `set_team`."%string; "- `min_balance`: The minimum balance of this new asset that any single account must"%string; "have. If an account's balance is reduced below this, then it collapses to zero."%string; ""%string; "Emits `ForceCreated` event when successful."%string; ""%string; "Weight: `O(1)`"%string]); (Variant "start_destroy"%string [(Field (Some "id"%string) 70%N (Some "T::AssetIdParameter"%string) [])] 2%N ["Start the process of destroying a fungible asset class."%string; ""%string; "`start_destroy` is the first in a series of extrinsics that should be called, to allow"%string; "destruction of an asset class."%string; ""%string; "The origin must conform to `ForceOrigin` or must be `Signed` by the asset's `owner`."%string; ""%string; "- `id`: The identifier of the asset to be destroyed. This must identify an existing"%string; "  asset."%string; ""%string; "The asset class must be frozen before calling `start_destroy`."%string]); (Variant "destroy_accounts"%string [(Field (Some "id"%string) 70%N (Some "T::AssetIdParameter"%string) [])] 3%N ["Destroy all accounts associated with a given asset."%string; ""%string; "`destroy_accounts` should only be called after `start_destroy` has been called, and the"%string; "asset is in a `Destroying` state."%string; ""%string; "Due to weight restrictions, this function may need to be called multiple times to fully"%string; "destroy all accounts. It will destroy `RemoveItemsLimit` accounts at a time."%string; ""%string; "- `id`: The identifier of the asset to be destroyed. This must identify an existing"%string; "  asset."%string; ""%string; "Each call emits the `Event::DestroyedAccounts` event."%string]); (Variant "destroy_approvals"%string [(Field (Some "id"%string) 70%N (Some "T::AssetIdParameter"%string) [])] 4%N ["Destroy all approvals associated with a given asset up to the max (T::RemoveItemsLimit)."%string; ""%string; "`destroy_approvals` should only be called after `start_destroy` has been called, and the"%string; "asset is in a `Destroying` state."%string; ""%string; "Due to weight restrictions, this function may need to be called multiple times to fully"%string; "destroy all approvals. It will destroy `RemoveItemsLimit` approvals at a time."%string; ""%string; "- `id`: The identifier of the asset to be destroyed. This must identify an existing"%string; "  asset."%string; ""%string; "Each call emits the `Event::DestroyedApprovals` event."%string]); (Variant "finish_destroy"%string [(Field (Some "id"%string) 70%N (Some "T::AssetIdParameter"%string) [])] 5%N ["Complete destroying asset and unreserve currency."%string; ""%string; "`finish_destroy` should only be called after `start_destroy` has been called, and the"%string; "asset is in a `Destroying` state. All accounts or approvals should be destroyed before"%string; "hand."%string; ""%string; "- `id`: The identifier of the asset to be destroyed. This must identify an existing"%string; "  asset."%string; ""%string; "Each successful call emits the `Event::Destroyed` event."%string]); (Variant "mint"%string [(Field (Some "id"%string) 70%N (Some "T::AssetIdParameter"%string) []); (Field (Some "beneficiary"%string) 166%N (Some "AccountIdLookupOf<T>"%string) []); (Field (Some "amount"%string) 70%N (Some "T::Balance"%string) [])] 6%N ["Mint assets of a particular class."%string; ""%string; "The origin must be Signed and the sender must be the Issuer of the asset `id`."%string; ""%string; "- `id`: The identifier of the asset to have some amount minted."%string; "- `beneficiary`: The account to be credited with the minted assets."%string; "- `amount`: The amount of the asset to be minted."%string; ""%string; "Emits `Issued` event when successful."%string; ""%string; "Weight: `O(1)`"%string; "Modes: Pre-existing balance of `beneficiary`; Account pre-existence of `beneficiary`."%string]); (Variant "burn"%string [(Field (Some "id"%string) 70%N (Some "T::AssetIdParameter"%string) []); (Field (Some "who"%string) 166%N (Some "AccountIdLookupOf<T>"%string) []); (Field (Some "amount"%string) 70%N (Some "T::Balance"%string) [])] 7%N ["Reduce the balance of `who` by as much as possible up to `amount` assets of `id`."%string; ""%string; "Origin must be Signed and the sender should be the Manager of the asset `id`."%string; ""%string; "Bails with `NoAccount` if the `who` is already dead."%string; ""%string; "- `id`: The identifier of the asset to have some amount burned."%string; "- `who`: The account to be debited from."%string; "- `amount`: The maximum amount by which `who`'s balance should be reduced."%string; ""%string; "Emits `Burned` with the actual amount burned. If this takes the balance to below the"%string; "minimum for the asset, then the amount burned is increased to take it to zero."%string; ""%string; "Weight: `O(1)`"%string; "Modes: Post-existence of `who`; Pre & post Zombie-status of `who`."%string]); (Variant "transfer"%string [(Field (Some "id"%string) 70%N (Some "T::AssetIdParameter"%string) []); (Field (Some "target"%string) 166%N (Some "AccountIdLookupOf<T>"%string) []); (Field (Some "amount"%string) 70%N (Some "T::Balance"%string) [])] 8%N ["Move some assets from the sender account to another."%string; ""%string; "Origin must be Signed."%string; ""%string; "- `id`: The identifier of the asset to have some amount transferred."%string; "- `target`: The account to be credited."%string; "- `amount`: The amount by which the sender's balance of assets should be reduced and"%string; "`target`'s balance increased. The amount actually transferred may be slightly greater in"%string; "the case that the transfer would otherwise take the sender balance above zero but below"%string; "the minimum balance. Must be greater than zero."%string; ""%string; "Emits `Transferred` with the actual amount transferred. If this takes the source balance"%string; "to below the minimum for the asset, then the amount transferred is increased to take it"%string; "to zero."%string; ""%string; "Weight: `O(1)`"%string; "Modes: Pre-existence of `target`; Post-existence of sender; Account pre-existence of"%string; "`target`."%string]); (Variant "transfer_keep_alive"%string [(Field (Some "id"%string) 70%N (Some "T::AssetIdParameter"%string) []); (Field (Some "target"%string) 166%N (Some "AccountIdLookupOf<T>"%string) []); (Field (Some "amount"%string) 70%N (Some "T::Balance"%string) [])] 9%N ["Move some assets from the sender account to another, keeping the sender account alive."%string; ""%string; "Origin must be Signed."%string; ""%string; "- `id`: The identifier of the asset to have some amount transferred."%string; "- `target`: The account to be credited."%string; "- `amount`: The amount by which the sender's balance of assets should be reduced and"%string; "`target`'s balance increased. The amount actually transferred may be slightly greater in"%string; "the case that the transfer would otherwise take the sender balance above zero but below"%string; "the minimum balance. Must be greater than zero."%string; ""%string; "Emits `Transferred` with the actual amount transferred. If this takes the source balance"%string; "to below the minimum for the asset, then the amount transferred is increased to take it"%string; "to zero."%string; ""%string; "Weight: `O(1)`"%string; "Modes: Pre-existence of `target`; Post-existence of sender; Account pre-existence of"%string; "`target`."%string]); (Variant "force_transfer"%string [(Field (Some "id"%string) 70%N (Some "T::AssetIdParameter"%string) []); (Field (Some "source"%string) 166%N (Some "AccountIdLookupOf<T>"%string) []); (Field (Some "dest"%string) 166%N (Some "AccountIdLookupOf<T>"%string) []); (Field (Some "amount"%string) 70%N (Some "T::Balance"%string) [])] 10%N ["Move some assets from one account to another."%string; ""%string; "Origin must be Signed and the sender should be the Admin of the asset `id`."%string; ""%string; "- `id`: The identifier of the asset to have some amount transferred."%string; "- `source`: The account to be debited."%string; "- `dest`: The account to be credited."%string; "- `amount`: The amount by which the `source`'s balance of assets should be reduced and"%string; "`dest`'s balance increased. The amount actually transferred may be slightly greater in"%string; "the case that the transfer would otherwise take the `source` balance above zero but"%string; "below the minimum balance. Must be greater than zero."%string; ""%string; "Emits `Transferred` with the actual amount transferred. If this takes the source balance"%string; "to below the minimum for the asset, then the amount transferred is increased to take it"%string; "to zero."%string; ""%string; "Weight: `O(1)`"%string; "Modes: Pre-existence of `dest`; Post-existence of `source`; Account pre-existence of"%string; "`dest`."%string]); (Variant "freeze"%string [(Field (Some "id"%string) 70%N (Some "T::AssetIdParameter"%string) []); (Field (Some "who"%string) 166%N (Some "AccountIdLookupOf<T>"%string) [])] 11%N ["Disallow further unprivileged transfers of an asset `id` from an account `who`. `who`"%string; "must already exist as an entry in `Account`s of the asset. If you want to freeze an"%string; "account that does not have an entry, use `touch_other` first."%string; ""%string; "Origin must be Signed and the sender should be the Freezer of the asset `id`."%string; ""%string; "- `id`: The identifier of the asset to be frozen."%string; "- `who`: The account to be frozen."%string; ""%string; "Emits `Frozen`."%string; ""%string; "Weight: `O(1)`"%string]); (Variant "thaw"%string [(Field (Some "id"%string) 70%N (Some "T::AssetIdParameter"%string) []); (Field (Some "who"%string) 166%N (Some "AccountIdLookupOf<T>"%string) [])] 12%N ["Allow unprivileged transfers to and from an account again."%string; ""%string; "Origin must be Signed and the sender should be the Admin of the asset `id`."%string; ""%string; "- `id`: The identifier of the asset to be frozen."%string; "- `who`: The account to be unfrozen."%string; ""%string; "Emits `Thawed`."%string; ""%string; "Weight: `O(1)`"%string]); (Variant "freeze_asset"%string [(Field (Some "id"%string) 70%N (Some "T::AssetIdParameter"%string) [])] 13%N ["Disallow further unprivileged transfers for the asset class."%string; ""%string; "Origin must be Signed and the sender should be the Freezer of the asset `id`."%string; ""%string; "- `id`: The identifier of the asset to be frozen."%string; ""%string; "Emits `Frozen`."%string; ""%string; "Weight: `O(1)`"%string]); (Variant "thaw_asset"%string [(Field (Some "id"%string) 70%N (Some "T::AssetIdParameter"%string) [])] 14%N ["Allow unprivileged transfers for the asset again."%string; ""%string; "Origin must be Signed and the sender should be the Admin of the asset `id`."%string; ""%string; "- `id`: The identifier of the asset to be thawed."%string; ""%string; "Emits `Thawed`."%string; ""%string; "Weight: `O(1)`"%string]); (Variant "transfer_ownership"%string [(Field (Some "id"%string) 70%N (Some "T::AssetIdParameter"%string) []); (Field (Some "owner"%string) 166%N (Some "AccountIdLookupOf<T>"%string) [])] 15%N ["Change the Owner of an asset."%string; ""%string; "Origin must be Signed and the sender should be the Owner of the asset `id`."%string; ""%string; "- `id`: The identifier of the asset."%string; "- `owner`: The new Owner of this asset."%string; ""%string; "Emits `OwnerChanged`."%string; ""%string; "Weight: `O(1)`"%string]); (Variant "set_team"%string [(Field (Some "id"%string) 70%N (Some "T::AssetIdParameter"%string) []); (Field (Some "issuer"%string) 166%N (Some "AccountIdLookupOf<T>"%string) []); (Field (Some "admin"%string) 166%N (Some "AccountIdLookupOf<T>"%string) []); (Field (Some "freezer"%string) 166%N (Some "AccountIdLookupOf<T>"%string) [])] 16%N ["Change the Issuer, Admin and Freezer of an asset."%string; ""%string; "Origin must be Signed and the sender should be the Owner of the asset `id`."%string; ""%string; "- `id`: The identifier of the asset to be frozen."%string; "- `issuer`: The new Issuer of this asset."%string; "- `admin`: The new Admin of this asset."%string; "- `freezer`: The new Freezer of this asset."%string; ""%string; "Emits `TeamChanged`."%string; ""%string; "Weight: `O(1)`"%string]); (Variant "set_metadata"%string [(Field (Some "id"%string) 70%N (Some "T::AssetIdParameter"%string) []); (Field (Some "name"%string) 13%N (Some "Vec<u8>"%string) []); (Field (Some "symbol"%string) 13%N (Some "Vec<u8>"%string) []); (Field (Some "decimals"%string) 2%N (Some "u8"%string) [])] 17%N ["Set the metadata for an asset."%string; ""%string; "Origin must be Signed and the sender should be the Owner of the asset `id`."%string; ""%string; "Funds of sender are reserved according to the formula:"%string; "`MetadataDepositBase + MetadataDepositPerByte * (name.len + symbol.len)` taking into"%string; "account any already reserved funds."%string; ""%string; "- `id`: The identifier of the asset to update."%string; "- `name`: The user friendly name of this asset. Limited in length by `StringLimit`."%string; "- `symbol`: The exchange symbol for this asset. Limited in length by `StringLimit`."%string; "- `decimals`: The number of decimals this asset uses to represent one unit."%string; ""%string; "Emits `MetadataSet`."%string; ""%string; "Weight: `O(1)`"%string]); (Variant "clear_metadata"%string [(Field (Some "id"%string) 70%N (Some "T::AssetIdParameter"%string) [])] 18%N ["Clear the metadata for an asset."%string; ""%string; "Origin must be Signed and the sender should be the Owner of the asset `id`."%string; ""%string; "Any deposit is freed for the asset owner."%string; ""%string; "- `id`: The identifier of the asset to clear."%string; ""%string; "Emits `MetadataCleared`."%string; ""%string; "Weight: `O(1)`"%string]); (Variant "force_set_metadata"%string [(Field (Some "id"%string) 70%N (Some "T::AssetIdParameter"%string) []); (Field (Some "name"%string) 13%N (Some "Vec<u8>"%string) []); (Field (Some "symbol"%string) 13%N (Some "Vec<u8>"%string) []); (Field (Some "decimals"%string) 2%N (Some "u8"%string) []); (Field (Some "is_frozen"%string) 49%N (Some "bool"%string) [])] 19%N ["Force the metadata for an asset to some value."%string; ""%string; "Origin must be ForceOrigin."%string; ""%string; "Any deposit is left alone."%string; ""%string; "- `id`: The identifier of the asset to update."%string; "- `name`: The user friendly name of this asset. Limited in length by `StringLimit`."%string; "- `symbol`: The exchange symbol for this asset. Limited in length by `StringLimit`."%string; "- `decimals`: The number of decimals this asset uses to represent one unit."%string; ""%string; "Emits `MetadataSet`."%string; ""%string; "Weight: `O(N + S)` where N and S are the length of the name and symbol respectively."%string]); (Variant "force_clear_metadata"%string [(Field (Some "id"%string) 70%N (Some "T::AssetIdParameter"%string) [])] 20%N ["Clear the metadata for an asset."%string; ""%string; "Origin must be ForceOrigin."%string; ""%string; "Any deposit is returned."%string; ""%string; "- `id`: The identifier of the asset to clear."%string; ""%string; "Emits `MetadataCleared`."%string; ""%string; "Weight: `O(1)`"%string]); (Variant "force_asset_status"%string [(Field (Some "id"%string) 70%N (Some "T::AssetIdParameter"%string) []); (Field (Some "owner"%string) 166%N (Some "AccountIdLookupOf<T>"%string) []); (Field (Some "issuer"%string) 166%N (Some "AccountIdLookupOf<T>"%string) []); (Field (Some "admin"%string) 166%N (Some "AccountIdLookupOf<T>"%string) []); (Field (Some "freezer"%string) 166%N (Some "AccountIdLookupOf<T>"%string) []); (Field (Some "min_balance"%string) 70%N (Some "T::Balance"%string) []); (Field (Some "is_sufficient"%string) 49%N (Some "bool"%string) []); (Field (Some "is_frozen"%string) 49%N (Some "bool"%string) [])] 21%N ["Alter the attributes of a given asset."%string; ""%string; "Origin must be `ForceOrigin`."%string; ""%string; "- `id`: The identifier of the asset."%string; "- `owner`: The new Owner of this asset."%string; "- `issuer`: The new Issuer of this asset."%string; "- `admin`: The new Admin of this asset."%string; "- `freezer`: The new Freezer of this asset."%string; "- `min_balance`: The minimum balance of this new asset that any single account must"%string; "have. If an account's balance is reduced below this, then it collapses to zero."%string; "- `is_sufficient`: Whether a non-zero balance of this asset is deposit of sufficient"%string; "value to account for the state bloat associated with its balance storage. If set to"%string; "`true`, then non-zero balances may be stored without a `consumer` reference (and thus"%string; "an ED in the Balances pallet or whatever else is used to control user-account state"%string; "growth)."%string; "- `is_frozen`: Whether this asset class is frozen except for permissioned/admin"%string; "instructions."%string; ""%string; "Emits `AssetStatusChanged` with the identity of the asset."%string; ""%string; "Weight: `O(1)`"%string]); (Variant "approve_transfer"%string [(Field (Some "id"%string) 70%N (Some "T::AssetIdParameter"%string) []); (Field (Some "delegate"%string) 166%N (Some "AccountIdLookupOf<T>"%string) []); (Field (Some "amount"%string) 70%N (Some "T::Balance"%string) [])] 22%N ["Approve an amount of asset for transfer by a delegated third-party account."%string; ""%string; "Origin must be Signed."%string; ""%string; "Ensures that `ApprovalDeposit` worth of `Currency` is reserved from signing account"%string; "for the purpose of holding the approval. If some non-zero amount of assets is already"%string; "approved from signing account to `delegate`, then it is topped up or unreserved to"%string; "meet the right value."%string; ""%string; "NOTE: The signing account does not need to own `amount` of assets at the point of"%string; "making this call."%string; ""%string; "- `id`: The identifier of the asset."%string; "- `delegate`: The account to delegate permission to transfer asset."%string; "- `amount`: The amount of asset that may be transferred by `delegate`. If there is"%string; "already an approval in place, then this acts additively."%string; ""%string; "Emits `ApprovedTransfer` on success."%string; ""%string; "Weight: `O(1)`"%string]); (Variant "cancel_approval"%string [(Field (Some "id"%string) 70%N (Some "T::AssetIdParameter"%string) []); (Field (Some "delegate"%string) 166%N (Some "AccountIdLookupOf<T>"%string) [])] 23%N ["Cancel all of some asset approved for delegated transfer by a third-party account."%string; ""%string; "Origin must be Signed and there must be an approval in place between signer and"%string; "`delegate`."%string; ""%string; "Unreserves any deposit previously reserved by `approve_transfer` for the approval."%string; ""%string; "- `id`: The identifier of the asset."%string; "- `delegate`: The account delegated permission to transfer asset."%string; ""%string; "Emits `ApprovalCancelled` on success."%string; ""%string; "Weight: `O(1)`"%string]); (Variant "force_cancel_approval"%string [(Field (Some "id"%string) 70%N (Some "T::AssetIdParameter"%string) []); (Field (Some "owner"%string) 166%N (Some "AccountIdLookupOf<T>"%string) []); (Field (Some "delegate"%string) 166%N (Some "AccountIdLookupOf<T>"%string) [])] 24%N ["Cancel all of some asset approved for delegated transfer by a third-party account."%string; ""%string; "Origin must be either ForceOrigin or Signed origin with the signer being the Admin"%string; "account of the asset `id`."%string; ""%string; "Unreserves any deposit previously reserved by `approve_transfer` for the approval."%string; ""%string; "- `id`: The identifier of the asset."%string; "- `delegate`: The account delegated permission to transfer asset."%string; ""%string; "Emits `ApprovalCancelled` on success."%string; ""%string; "Weight: `O(1)`"%string]); (Variant "transfer_approved"%string [(Field (Some "id"%string) 70%N (Some "T::AssetIdParameter"%string) []); (Field (Some "owner"%string) 166%N (Some "AccountIdLookupOf<T>"%string) []); (Field (Some "destination"%string) 166%N (Some "AccountIdLookupOf<T>"%string) []); (Field (Some "amount"%string) 70%N (Some "T::Balance"%string) [])] 25%N ["Transfer some asset balance from a previously delegated account to some third-party"%string; "account."%string; ""%string; "Origin must be Signed and there must be an approval in place by the `owner` to the"%string; "signer."%string; ""%string; "If the entire amount approved for transfer is transferred, then any deposit previously"%string; "reserved by `approve_transfer` is unreserved."%string; ""%string; "- `id`: The identifier of the asset."%string; "- `owner`: The account which previously approved for a transfer of at least `amount` and"%string; "from which the asset balance will be withdrawn."%string; "- `destination`: The account to which the asset balance of `amount` will be transferred."%string; "- `amount`: The amount of assets to transfer."%string; ""%string; "Emits `TransferredApproved` on success."%string; ""%string; "Weight: `O(1)`"%string]); (Variant "touch"%string [(Field (Some "id"%string) 70%N (Some "T::AssetIdParameter"%string) [])] 26%N ["Create an asset account for non-provider assets."%string; ""%string; "A deposit will be taken from the signer account."%string; ""%string; "- `origin`: Must be Signed; the signer account must have sufficient funds for a deposit"%string; "  to be taken."%string; "- `id`: The identifier of the asset for the account to be created."%string; ""%string; "Emits `Touched` event when successful."%string]); (Variant "refund"%string [(Field (Some "id"%string) 70%N (Some "T::AssetIdParameter"%string) []); (Field (Some "allow_burn"%string) 49%N (Some "bool"%string) [])] 27%N ["Return the deposit (if any) of an asset account or a consumer reference (if any) of an"%string; "account."%string; ""%string; "The origin must be Signed."%string; ""%string; "- `id`: The identifier of the asset for which the caller would like the deposit"%string; "  refunded."%string; "- `allow_burn`: If `true` then assets may be destroyed in order to complete the refund."%string; ""%string; "Emits `Refunded` event when successful."%string]); (Variant "set_min_balance"%string [(Field (Some "id"%string) 70%N (Some "T::AssetIdParameter"%string) []); (Field (Some "min_balance"%string) 6%N (Some "T::Balance"%string) [])] 28%N ["Sets the minimum balance of an asset."%string; ""%string; "Only works if there aren't any accounts that are holding the asset or if"%string; "the new value of `min_balance` is less than the old one."%string; ""%string; "Origin must be Signed and the sender has to be the Owner of the"%string; "asset `id`."%string; ""%string; "- `id`: The identifier of the asset."%string; "- `min_balance`: The new value of `min_balance`."%string; ""%string; "Emits `AssetMinBalanceChanged` event when successful."%string]); (Variant "touch_other"%string [(Field (Some "id"%string) 70%N (Some "T::AssetIdParameter"%string) []); (Field (Some "who"%string) 166%N (Some "AccountIdLookupOf<T>"%string) [])] 29%N ["Create an asset account for `who`."%string; ""%string; "A deposit will be taken from the signer account."%string; ""%string; "- `origin`: Must be Signed by `Freezer` or `Admin` of the asset `id`; the signer account"%string; "  must have sufficient funds for a deposit to be taken."%string; "- `id`: The identifier of the asset for the account to be created."%string; "- `who`: The account to be created."%string; ""%string; "Emits `Touched` event when successful."%string]); (Variant "refund_other"%string [(Field (Some "id"%string) 70%N (Some "T::AssetIdParameter"%string) []); (Field (Some "who"%string) 166%N (Some "AccountIdLookupOf<T>"%string) [])] 30%N ["Return the deposit (if any) of a target asset account. Useful if you are the depositor."%string; ""%string; "The origin must be Signed and either the account owner, depositor, or asset `Admin`. In"%string; "order to burn a non-zero balance of the asset, the caller must be the account and should"%string; "use `refund`."%string; ""%string; "- `id`: The identifier of the asset for the account holding a deposit."%string; "- `who`: The account to refund."%string; ""%string; "Emits `Refunded` event when successful."%string]); (Variant "block"%string [(Field (Some "id"%string) 70%N (Some "T::AssetIdParameter"%string) []); (Field (Some "who"%string) 166%N (Some "AccountIdLookupOf<T>"%string) [])] 31%N ["Disallow further unprivileged transfers of an asset `id` to and from an account `who`."%string; ""%string; "Origin must be Signed and the sender should be the Freezer of the asset `id`."%string; ""%string; "- `id`: The identifier of the account's asset."%string; "- `who`: The account to be unblocked."%string; ""%string; "Emits `Blocked`."%string; ""%string; "Weight: `O(1)`"%string])]) ["Contains one variant per dispatchable that can be called by an extrinsic."%string]).
Definition md_t233 : ty := (Ty ["pallet_collator_selection"%string; "pallet"%string; "Call"%string] [("T"%string,None)] (TVariant [(Variant "set_invulnerables"%string [(Field (Some "new"%string) 57%N (Some "Vec<T::AccountId>"%string) [])] 0%N ["Set the list of invulnerable (fixed) collators."%string]); (Variant "set_desired_candidates"%string [(Field (Some "max"%string) 4%N (Some "u32"%string) [])] 1%N ["Set the ideal number of collators (not including the invulnerables)."%string; "If lowering this number, then the number of running collators could be higher than this figure."%string; "Aside from that edge case, there should be no other way to have more collators than the desired number."%string]); (Variant "set_candidacy_bond"%string [(Field (Some "bond"%string) 6%N (Some "BalanceOf<T>"%string) [])] 2%N ["Set the candidacy bond amount."%string]); (Variant "register_as_candidate"%string [] 3%N ["Register this account as a collator candidate. The account must (a) already have"%string; "registered session keys and (b) be able to reserve the `CandidacyBond`."%string; ""%string; "This call is not available to `Invulnerable` collators."%string]); (Variant "leave_intent"%string [] 4%N ["Deregister `origin` as a collator candidate. Note that the collator can only leave on"%string; "session change. The `CandidacyBond` will be unreserved immediately."%string; ""%string; "This call will fail if the total number of candidates would drop below `MinCandidates`."%string; ""%string; "This call is not available to `Invulnerable` collators."%string])]) ["Contains one variant per dispatchable that can be called by an extrinsic."%string]).
Definition md_t234 : ty := (Ty ["pallet_session"%string; "pallet"%string; "Call"%string] [("T"%string,None)] (TVariant [(Variant "set_keys"%string [(Field (Some "keys"%string) 235%N (Some "T::Keys"%string) []); (Field (Some "proof"%string) 13%N (Some "Vec<u8>"%string) [])] 0%N ["Sets the session key(s) of the function caller to `keys`."%string; "Allows an account to set its session key prior to becoming a validator."%string; "This doesn't take effect until the next session."%string; ""%string; "The dispatch origin of this function must be signed."%string; ""%string; "## Complexity"%string; "- `O(1)`. Actual cost depends on the number of length of `T::Keys::key_ids()` which is"%string; "  fixed."%string]); (Variant "purge_keys"%string [] 1%N ["Removes any session key(s) of the function caller."%string; ""%string; "This doesn't take effect until the next session."%string; ""%string; "The dispatch origin of this function must be Signed and the account must be either be"%string; "convertible to a validator ID using the chain's typical addressing system (this usually"%string; "means being a controller account) or directly convertible into a validator ID (which"%string; "usually means being a stash account)."%string; ""%string; "## Complexity"%string; "- `O(1)` in number of key types. Actual cost depends on the number of length of"%string; "  `T::Keys::key_ids()` which is fixed."%string])]) ["Contains one variant per dispatchable that can be called by an extrinsic."%string]).
Definition md_t235 : ty := (Ty ["astar_runtime"%string; "SessionKeys"%string] [] (TComposite [(Field (Some "aura"%string) 236%N (Some "<Aura as $crate::BoundToRuntimeAppPublic>::Public"%string) [])]) []).
Definition md_t236 : ty := (Ty ["sp_consensus_aura"%string; "sr25519"%string; "app_sr25519"%string; "Public"%string] [] (TComposite [(Field None 237%N (Some "sr25519::Public"%string) [])]) []).
Definition md_t237 : ty := (Ty ["sp_core"%string; "sr25519"%string; "Public"%string] [] (TComposite [(Field None 1%N (Some "[u8; 32]"%string) [])]) []).
Definition md_t238 : ty := (Ty ["cumulus_pallet_xcmp_queue"%string; "pallet"%string; "Call"%string] [("T"%string,None)] (TVariant [(Variant "service_overweight"%string [(Field (Some "index"%string) 11%N (Some "OverweightIndex"%string) []); (Field (Some "weight_limit"%string) 9%N (Some "Weight"%string) [])] 0%N ["Services a single overweight XCM."%string; ""%string; "- `origin`: Must pass `ExecuteOverweightOrigin`."%string; "- `index`: The index of the overweight XCM to service"%string; "- `weight_limit`: The amount of weight that XCM execution may take."%string; ""%string; "Errors:"%string; "- `BadOverweightIndex`: XCM under `index` is not found in the `Overweight` storage map."%string; "- `BadXcm`: XCM under `index` cannot be properly decoded into a valid XCM format."%string; "- `WeightOverLimit`: XCM execution may use greater `weight_limit`."%string; ""%string; "Events:"%string; "- `OverweightServiced`: On success."%string]); (Variant "suspend_xcm_execution"%string [] 1%N ["Suspends all XCM executions for the XCMP queue, regardless of the sender's origin."%string; ""%string; "- `origin`: Must pass `ControllerOrigin`."%string]); (Variant "resume_xcm_execution"%string [] 2%N ["Resumes all XCM executions for the XCMP queue."%string; ""%string; "Note that this function doesn't change the status of the in/out bound channels."%string; ""%string; "- `origin`: Must pass `ControllerOrigin`."%string]); (Variant "update_suspend_threshold"%string [(Field (Some "new"%string) 4%N (Some "u32"%string) [])] 3%N ["Overwrites the number of pages of messages which must be in the queue for the other side to be told to"%string; "suspend their sending."%string; ""%string; "- `origin`: Must pass `Root`."%string; "- `new`: Desired value for `QueueConfigData.suspend_value`"%string]); (Variant "update_drop_threshold"%string [(Field (Some "new"%string) 4%N (Some "u32"%string) [])] 4%N ["Overwrites the number of pages of messages which must be in the queue after which we drop any further"%string; "messages from the channel."%string; ""%string; "- `origin`: Must pass `Root`."%string; "- `new`: Desired value for `QueueConfigData.drop_threshold`"%string]); (Variant "update_resume_threshold"%string [(Field (Some "new"%string) 4%N (Some "u32"%string) [])] 5%N ["Overwrites the number of pages of messages which the queue must be reduced to before it signals that"%string; "message sending may recommence after it has been suspended."%string; ""%string; "- `origin`: Must pass `Root`."%string; "- `new`: Desired value for `QueueConfigData.resume_threshold`"%string]); (Variant "update_threshold_weight"%string [(Field (Some "new"%string) 9%N (Some "Weight"%string) [])] 6%N ["Overwrites the amount of remaining weight under which we stop processing messages."%string; ""%string; "- `origin`: Must pass `Root`."%string; "- `new`: Desired value for `QueueConfigData.threshold_weight`"%string]); (Variant "update_weight_restrict_decay"%string [(Field (Some "new"%string) 9%N (Some "Weight"%string) [])] 7%N ["Overwrites the speed to which the available weight approaches the maximum weight."%string; "A lower number results in a faster progression. A value of 1 makes the entire weight available initially."%string; ""%string; "- `origin`: Must pass `Root`."%string; "- `new`: Desired value for `QueueConfigData.weight_restrict_decay`."%string]); (Variant "update_xcmp_max_individual_weight"%string [(Field (Some "new"%string) 9%N (Some "Weight"%string) [])] 8%N ["Overwrite the maximum amount of weight any individual message may consume."%string; "Messages above this weight go into the overweight queue and may only be serviced explicitly."%string; ""%string; "- `origin`: Must pass `Root`."%string; "- `new`: Desired value for `QueueConfigData.xcmp_max_individual_weight`."%string])]) ["Contains one variant per dispatchable that can be called by an extrinsic."%string]).
Definition md_t239 : ty := (Ty ["pallet_xcm"%string; "pallet"%string; "Call"%string] [("T"%string,None)] (TVariant [(Variant "send"%string [(Field (Some "dest"%string) 115%N (Some "Box<VersionedMultiLocation>"%string) []); (Field (Some "message"%string) 240%N (Some "Box<VersionedXcm<()>>"%string) [])] 0%N []); (Variant "teleport_assets"%string [(Field (Some "dest"%string) 115%N (Some "Box<VersionedMultiLocation>"%string) []); (Field (Some "beneficiary"%string) 115%N (Some "Box<VersionedMultiLocation>"%string) []); (Field (Some "assets"%string) 101%N (Some "Box<VersionedMultiAssets>"%string) []); (Field (Some "fee_asset_item"%string) 4%N (Some "u32"%string) [])] 1%N ["Teleport some assets from the local chain to some destination chain."%string; ""%string; "Fee payment on the destination side is made from the asset in the `assets` vector of"%string; "index `fee_asset_item`. The weight limit for fees is not provided and thus is unlimited,"%string; "with all fees taken as needed from the asset."%string; ""%string; "- `origin`: Must be capable of withdrawing the `assets` and executing XCM."%string; "- `dest`: Destination context for the assets. Will typically be `X2(Parent, Parachain(..))` to send"%string; "  from parachain to parachain, or `X1(Parachain(..))` to send from relay to parachain."%string; "- `beneficiary`: A beneficiary location for the assets in the context of `dest`. Will generally be"%string; "  an `AccountId32` value."%string; "- `assets`: The assets to be withdrawn. The first item should be the currency used to to pay the fee on the"%string; "  `dest` side. May not be empty."%string; "- `fee_asset_item`: The index into `assets` of the item which should be used to pay"%string; "  fees."%string]); (Variant "reserve_transfer_assets"%string [(Field (Some "dest"%string) 115%N (Some "Box<VersionedMultiLocation>"%string) []); (Field (Some "beneficiary"%string) 115%N (Some "Box<VersionedMultiLocation>"%string) []); (Field (Some "assets"%string) 101%N (Some "Box<VersionedMultiAssets>"%string) []); (Field (Some "fee_asset_item"%string) 4%N (Some "u32"%string) [])] 2%N ["Transfer some assets from the local chain to the sovereign account of a destination"%string; "chain and forward a notification XCM."%string; ""%string; "Fee payment on the destination side is made from the asset in the `assets` vector of"%string; "index `fee_asset_item`. The weight limit for fees is not provided and thus is unlimited,"%string; "with all fees taken as needed from the asset."%string; ""%string; "- `origin`: Must be capable of withdrawing the `assets` and executing XCM."%string; "- `dest`: Destination context for the assets. Will typically be `X2(Parent, Parachain(..))` to send"%string; "  from parachain to parachain, or `X1(Parachain(..))` to send from relay to parachain."%string; "- `beneficiary`: A beneficiary location for the assets in the context of `dest`. Will generally be"%string; "  an `AccountId32` value."%string; "- `assets`: The assets to be withdrawn. This should include the assets used to pay the fee on the"%string; "  `dest` side."%string; "- `fee_asset_item`: The index into `assets` of the item which should be used to pay"%string; "  fees."%string]); (Variant "execute"%string [(Field (Some "message"%string) 252%N (Some "Box<VersionedXcm<<T as SysConfig>::RuntimeCall>>"%string) []); (Field (Some "max_weight"%string) 9%N (Some "Weight"%string) [])] 3%N ["Execute an XCM message from a local, signed, origin."%string; ""%string; "An event is deposited indicating whether `msg` could be executed completely or only"%string; "partially."%string; ""%string; "No more than `max_weight` will be used in its attempted execution. If this is less than the"%string; "maximum amount of weight that the message could take to be executed, then no execution"%string; "attempt will be made."%string; ""%string; "NOTE: A successful return to this does *not* imply that the `msg` was executed successfully"%string; "to completion; only that *some* of it was executed."%string]); (Variant "force_xcm_version"%string [(Field (Some "location"%string) 64%N (Some "Box<MultiLocation>"%string) []); (Field (Some "xcm_version"%string) 4%N (Some "XcmVersion"%string) [])] 4%N ["Extoll that a particular destination can be communicated with through a particular"%string; "version of XCM."%string; ""%string; "- `origin`: Must be Root."%string; "- `location`: The destination that is being described."%string; "- `xcm_version`: The latest version of XCM that `location` supports."%string]); (Variant "force_default_xcm_version"%string [(Field (Some "maybe_xcm_version"%string) 260%N (Some "Option<XcmVersion>"%string) [])] 5%N ["Set a safe XCM version (the version that XCM should be encoded with if the most recent"%string; "version a destination can accept is unknown)."%string; ""%string; "- `origin`: Must be Root."%string; "- `maybe_xcm_version`: The default XCM encoding version, or `None` to disable."%string]); (Variant "force_subscribe_version_notify"%string [(Field (Some "location"%string) 115%N (Some "Box<VersionedMultiLocation>"%string) [])] 6%N ["Ask a location to notify us regarding their XCM version and any changes to it."%string; ""%string; "- `origin`: Must be Root."%string; "- `location`: The location to which we should subscribe for XCM version notifications."%string]); (Variant "force_unsubscribe_version_notify"%string [(Field (Some "location"%string) 115%N (Some "Box<VersionedMultiLocation>"%string) [])] 7%N ["Require that a particular destination should no longer notify us regarding any XCM"%string; "version changes."%string; ""%string; "- `origin`: Must be Root."%string; "- `location`: The location to which we are currently subscribed for XCM version"%string; "  notifications which we no longer desire."%string]); (Variant "limited_reserve_transfer_assets"%string [(Field (Some "dest"%string) 115%N (Some "Box<VersionedMultiLocation>"%string) []); (Field (Some "beneficiary"%string) 115%N (Some "Box<VersionedMultiLocation>"%string) []); (Field (Some "assets"%string) 101%N (Some "Box<VersionedMultiAssets>"%string) []); (Field (Some "fee_asset_item"%string) 4%N (Some "u32"%string) []); (Field (Some "weight_limit"%string) 100%N (Some "WeightLimit"%string) [])] 8%N ["Transfer some assets from the local chain to the sovereign account of a destination"%string; "chain and forward a notification XCM."%string; ""%string; "Fee payment on the destination side is made from the asset in the `assets` vector of"%string; "index `fee_asset_item`, up to enough to pay for `weight_limit` of weight. If more weight"%string; "is needed than `weight_limit`, then the operation will fail and the assets send may be"%string; "at risk."%string; ""%string; "- `origin`: Must be capable of withdrawing the `assets` and executing XCM."%string; "- `dest`: Destination context for the assets. Will typically be `X2(Parent, Parachain(..))` to send"%string; "  from parachain to parachain, or `X1(Parachain(..))` to send from relay to parachain."%string; "- `beneficiary`: A beneficiary location for the assets in the context of `dest`. Will generally be"%string; "  an `AccountId32` value."%string; "- `assets`: The assets to be withdrawn. This should include the assets used to pay the fee on the"%string; "  `dest` side."%string; "- `fee_asset_item`: The index into `assets` of the item which should be used to pay"%string; "  fees."%string; "- `weight_limit`: The remote-side weight limit, if any, for the XCM fee purchase."%string]); (Variant "limited_teleport_assets"%string [(Field (Some "dest"%string) 115%N (Some "Box<VersionedMultiLocation>"%string) []); (Field (Some "beneficiary"%string) 115%N (Some "Box<VersionedMultiLocation>"%string) []); (Field (Some "assets"%string) 101%N (Some "Box<VersionedMultiAssets>"%string) []); (Field (Some "fee_asset_item"%string) 4%N (Some "u32"%string) []); (Field (Some "weight_limit"%string) 100%N (Some "WeightLimit"%string) [])] 9%N ["Teleport some assets from the local chain to some destination chain."%string; ""%string; "Fee payment on the destination side is made from the asset in the `assets` vector of"%string; "index `fee_asset_item`, up to enough to pay for `weight_limit` of weight. If more weight"%string; "is needed than `weight_limit`, then the operation will fail and the assets send may be"%string; "at risk."%string; ""%string; "- `origin`: Must be capable of withdrawing the `assets` and executing XCM."%string; "- `dest`: Destination context for the assets. Will typically be `X2(Parent, Parachain(..))` to send"%string; "  from parachain to parachain, or `X1(Parachain(..))` to send from relay to parachain."%string; "- `beneficiary`: A beneficiary location for the assets in the context of `dest`. Will generally be"%string; "  an `AccountId32` value."%string; "- `assets`: The assets to be withdrawn. The first item should be the currency used to to pay the fee on the"%string; "  `dest` side. May not be empty."%string; "- `fee_asset_item`: The index into `assets` of the item which should be used to pay"%string; "  fees."%string; "- `weight_limit`: The remote-side weight limit, if any, for the XCM fee purchase."%string]); (Variant "force_suspension"%string [(Field (Some "suspended"%string) 49%N (Some "bool"%string) [])] 10%N ["Set or unset the global suspension state of the XCM executor."%string; ""%string; "- `origin`: Must be an origin specified by AdminOrigin."%string; "- `suspended`: `true` to suspend, `false` to resume."%string]); (Variant "reserve_withdraw_assets"%string [(Field (Some "dest"%string) 115%N (Some "Box<VersionedMultiLocation>"%string) []); (Field (Some "beneficiary"%string) 115%N (Some "Box<VersionedMultiLocation>"%string) []); (Field (Some "assets"%string) 101%N (Some "Box<VersionedMultiAssets>"%string) []); (Field (Some "fee_asset_item"%string) 4%N (Some "u32"%string) [])] 200%N ["Transfer some assets from sovereign account to reserve holder chain and"%string; "forward a notification XCM."%string; ""%string; "Fee payment on the destination side is made from the asset in the `assets` vector of"%string; "index `fee_asset_item`. The weight limit for fees is not provided and thus is unlimited,"%string; "with all fees taken as needed from the asset."%string; ""%string; "- `origin`: Must be capable of withdrawing the `assets` and executing XCM."%string; "- `dest`: Destination context for the assets. Will typically be `X2(Parent, Parachain(..))` to send"%string; "  from parachain to parachain, or `X1(Parachain(..))` to send from relay to parachain."%string; "- `beneficiary`: A beneficiary location for the assets in the context of `dest`. Will generally be"%string; "  an `AccountId32` value."%string; "- `assets`: The assets to be withdrawn. This should include the assets used to pay the fee on the"%string; "  `dest` side."%string; "- `fee_asset_item`: The index into `assets` of the item which should be used to pay"%string; "  fees."%string]); (Variant "limited_reserve_withdraw_assets"%string [(Field (Some "dest"%string) 115%N (Some "Box<VersionedMultiLocation>"%string) []); (Field (Some "beneficiary"%string) 115%N (Some "Box<VersionedMultiLocation>"%string) []); (Field (Some "assets"%string) 101%N (Some "Box<VersionedMultiAssets>"%string) []); (Field (Some "fee_asset_item"%string) 4%N (Some "u32"%string) []); (Field (Some "weight_limit"%string) 100%N (Some "WeightLimit"%string) [])] 201%N ["Transfer some assets from sovereign account to reserve holder chain and"%string; "forward a notification XCM."%string; ""%string; "Fee payment on the destination side is made from the asset in the `assets` vector of"%string; "index `fee_asset_item`. The weight limit for fees is not provided and thus is unlimited,"%string; "with all fees taken as needed from the asset."%string; ""%string; "- `origin`: Must be capable of withdrawing the `assets` and executing XCM."%string; "- `dest`: Destination context for the assets. Will typically be `X2(Parent, Parachain(..))` to send"%string; "  from parachain to parachain, or `X1(Parachain(..))` to send from relay to parachain."%string; "- `beneficiary`: A beneficiary location for the assets in the context of `dest`. Will generally be"%string; "  an `AccountId32` value."%string; "- `assets`: The assets to be withdrawn. This should include the assets used to pay the fee on the"%string; "  `dest` side."%string; "- `fee_asset_item`: The index into `assets` of the item which should be used to pay"%string; "  fees."%string; "- `weight_limit`: The remote-side weight limit, if any, for the XCM fee purchase."%string])]) ["Contains one variant per dispatchable that can be called by an extrinsic."%string]).
Definition md_t240 : ty := (Ty ["xcm"%string; "VersionedXcm"%string] [("RuntimeCall"%string,None)] (TVariant [(Variant "V2"%string [(Field None 241%N (Some "v2::Xcm<RuntimeCall>"%string) [])] 2%N []); (Variant "V3"%string [(Field None 73%N (Some "v3::Xcm<RuntimeCall>"%string) [])] 3%N [])]) []).
Definition md_t241 : ty := (Ty ["xcm"%string; "v2"%string; "Xcm"%string] [("RuntimeCall"%string,None)] (TComposite [(Field None 242%N (Some "Vec<Instruction<RuntimeCall>>"%string) [])]) []).
Definition md_t242 : ty := (Ty [] [] (TSequence 243%N) []).
Definition md_t243 : ty := (Ty ["xcm"%string; "v2"%string; "Instruction"%string] [("RuntimeCall"%string,None)] (TVariant [(Variant "WithdrawAsset"%string [(Field None 102%N (Some "MultiAssets"%string) [])] 0%N []); (Variant "ReserveAssetDeposited"%string [(Field None 102%N (Some "MultiAssets"%string) [])] 1%N []); (Variant "ReceiveTeleportedAsset"%string [(Field None 102%N (Some "MultiAssets"%string) [])] 2%N []); (Variant "QueryResponse"%string [(Field (Some "query_id"%string) 10%N (Some "QueryId"%string) []); (Field (Some "response"%string) 244%N (Some "Response"%string) []); (Field (Some "max_weight"%string) 10%N (Some "u64"%string) [])] 3%N []); (Variant "TransferAsset"%string [(Field (Some "assets"%string) 102%N (Some "MultiAssets"%string) []); (Field (Some "beneficiary"%string) 106%N (Some "MultiLocation"%string) [])] 4%N []); (Variant "TransferReserveAsset"%string [(Field (Some "assets"%string) 102%N (Some "MultiAssets"%string) []); (Field (Some "dest"%string) 106%N (Some "MultiLocation"%string) []); (Field (Some "xcm"%string) 241%N (Some "Xcm<()>"%string) [])] 5%N []); (Variant "Transact"%string [(Field (Some "origin_type"%string) 94%N (Some "OriginKind"%string) []); (Field (Some "require_weight_at_most"%string) 10%N (Some "u64"%string) []); (Field (Some "call"%string) 95%N (Some "DoubleEncoded<RuntimeCall>"%string) [])] 6%N []); (Variant "HrmpNewChannelOpenRequest"%string [(Field (Some "sender"%string) 67%N (Some "u32"%string) []); (Field (Some "max_message_size"%string) 67%N (Some "u32"%string) []); (Field (Some "max_capacity"%string) 67%N (Some "u32"%string) [])] 7%N []); (Variant "HrmpChannelAccepted"%string [(Field (Some "recipient"%string) 67%N (Some "u32"%string) [])] 8%N []); (Variant "HrmpChannelClosing"%string [(Field (Some "initiator"%string) 67%N (Some "u32"%string) []); (Field (Some "sender"%string) 67%N (Some "u32"%string) []); (Field (Some "recipient"%string) 67%N (Some "u32"%string) [])] 9%N []); (Variant "ClearOrigin"%string [] 10%N []); (Variant "DescendOrigin"%string [(Field None 107%N (Some "InteriorMultiLocation"%string) [])] 11%N []); (Variant "ReportError"%string [(Field (Some "query_id"%string) 10%N (Some "QueryId"%string) []); (Field (Some "dest"%string) 106%N (Some "MultiLocation"%string) []); (Field (Some "max_response_weight"%string) 10%N (Some "u64"%string) [])] 12%N []); (Variant "DepositAsset"%string [(Field (Some "assets"%string) 248%N (Some "MultiAssetFilter"%string) []); (Field (Some "max_assets"%string) 67%N (Some "u32"%string) []); (Field (Some "beneficiary"%string) 106%N (Some "MultiLocation"%string) [])] 13%N []); (Variant "DepositReserveAsset"%string [(Field (Some "assets"%string) 248%N (Some "MultiAssetFilter"%string) []); (Field (Some "max_assets"%string) 67%N (Some "u32"%string) []); (Field (Some "dest"%string) 106%N (Some "MultiLocation"%string) []); (Field (Some "xcm"%string) 241%N (Some "Xcm<()>"%string) [])] 14%N []); (Variant "ExchangeAsset"%string [(Field (Some "give"%string) 248%N (Some "MultiAssetFilter"%string) []); (Field (Some "receive"%string) 102%N (Some "MultiAssets"%string) [])] 15%N []); (Variant "InitiateReserveWithdraw"%string [(Field (Some "assets"%string) 248%N (Some "MultiAssetFilter"%string) []); (Field (Some "reserve"%string) 106%N (Some "MultiLocation"%string) []); (Field (Some "xcm"%string) 241%N (Some "Xcm<()>"%string) [])] 16%N []); (Variant "InitiateTeleport"%string [(Field (Some "assets"%string) 248%N (Some "MultiAssetFilter"%string) []); (Field (Some "dest"%string) 106%N (Some "MultiLocation"%string) []); (Field (Some "xcm"%string) 241%N (Some "Xcm<()>"%string) [])] 17%N []); (Variant "QueryHolding"%string [(Field (Some "query_id"%string) 10%N (Some "QueryId"%string) []); (Field (Some "dest"%string) 106%N (Some "MultiLocation"%string) []); (Field (Some "assets"%string) 248%N (Some "MultiAssetFilter"%string) []); (Field (Some "max_response_weight"%string) 10%N (Some "u64"%string) [])] 18%N []); (Variant "BuyExecution"%string [(Field (Some "fees"%string) 104%N (Some "MultiAsset"%string) []); (Field (Some "weight_limit"%string) 251%N (Some "WeightLimit"%string) [])] 19%N []); (Variant "RefundSurplus"%string [] 20%N []); (Variant "SetErrorHandler"%string [(Field None 241%N (Some "Xcm<RuntimeCall>"%string) [])] 21%N []); (Variant "SetAppendix"%string [(Field None 241%N (Some "Xcm<RuntimeCall>"%string) [])] 22%N []); (Variant "ClearError"%string [] 23%N []); (Variant "ClaimAsset"%string [(Field (Some "assets"%string) 102%N (Some "MultiAssets"%string) []); (Field (Some "ticket"%string) 106%N (Some "MultiLocation"%string) [])] 24%N []); (Variant "Trap"%string [(Field None 10%N (Some "u64"%string) [])] 25%N []); (Variant "SubscribeVersion"%string [(Field (Some "query_id"%string) 10%N (Some "QueryId"%string) []); (Field (Some "max_response_weight"%string) 10%N (Some "u64"%string) [])] 26%N []); (Variant "UnsubscribeVersion"%string [] 27%N [])]) []).
Definition md_t244 : ty := (Ty ["xcm"%string; "v2"%string; "Response"%string] [] (TVariant [(Variant "Null"%string [] 0%N []); (Variant "Assets"%string [(Field None 102%N (Some "MultiAssets"%string) [])] 1%N []); (Variant "ExecutionResult"%string [(Field None 245%N (Some "Option<(u32, Error)>"%string) [])] 2%N []); (Variant "Version"%string [(Field None 4%N (Some "super::Version"%string) [])] 3%N [])]) []).
Definition md_t245 : ty := (Ty ["Option"%string] [("T"%string,(Some 246%N))] (TVariant [(Variant "None"%string [] 0%N []); (Variant "Some"%string [(Field None 246%N None [])] 1%N [])]) []).
Definition md_t246 : ty := (Ty [] [] (TTuple [4%N; 247%N]) []).
Definition md_t247 : ty := (Ty ["xcm"%string; "v2"%string; "traits"%string; "Error"%string] [] (TVariant [(Variant "Overflow"%string [] 0%N []); (Variant "Unimplemented"%string [] 1%N []); (Variant "UntrustedReserveLocation"%string [] 2%N []); (Variant "UntrustedTeleportLocation"%string [] 3%N []); (Variant "MultiLocationFull"%string [] 4%N []); (Variant "MultiLocationNotInvertible"%string [] 5%N []); (Variant "BadOrigin"%string [] 6%N []); (Variant "InvalidLocation"%string [] 7%N []); (Variant "AssetNotFound"%string [] 8%N []); (Variant "FailedToTransactAsset"%string [] 9%N []); (Variant "NotWithdrawable"%string [] 10%N []); (Variant "LocationCannotHold"%string [] 11%N []); (Variant "ExceedsMaxMessageSize"%string [] 12%N []); (Variant "DestinationUnsupported"%string [] 13%N []); (Variant "Transport"%string [] 14%N []); (Variant "Unroutable"%string [] 15%N []); (Variant "UnknownClaim"%string [] 16%N []); (Variant "FailedToDecode"%string [] 17%N []); (Variant "MaxWeightInvalid"%string [] 18%N []); (Variant "NotHoldingFees"%string [] 19%N []); (Variant "TooExpensive"%string [] 20%N []); (Variant "Trap"%string [(Field None 11%N (Some "u64"%string) [])] 21%N []); (Variant "UnhandledXcmVersion"%string [] 22%N []); (Variant "WeightLimitReached"%string [(Field None 11%N (Some "Weight"%string) [])] 23%N []); (Variant "Barrier"%string [] 24%N []); (Variant "WeightNotComputable"%string [] 25%N [])]) []).
Definition md_t248 : ty := (Ty ["xcm"%string; "v2"%string; "multiasset"%string; "MultiAssetFilter"%string] [] (TVariant [(Variant "Definite"%string [(Field None 102%N (Some "MultiAssets"%string) [])] 0%N []); (Variant "Wild"%string [(Field None 249%N (Some "WildMultiAsset"%string) [])] 1%N [])]) []).
Definition md_t249 : ty := (Ty ["xcm"%string; "v2"%string; "multiasset"%string; "WildMultiAsset"%string] [] (TVariant [(Variant "All"%string [] 0%N []); (Variant "AllOf"%string [(Field (Some "id"%string) 105%N (Some "AssetId"%string) []); (Field (Some "fun"%string) 250%N (Some "WildFungibility"%string) [])] 1%N [])]) []).
Definition md_t250 : ty := (Ty ["xcm"%string; "v2"%string; "multiasset"%string; "WildFungibility"%string] [] (TVariant [(Variant "Fungible"%string [] 0%N []); (Variant "NonFungible"%string [] 1%N [])]) []).
Definition md_t251 : ty := (Ty ["xcm"%string; "v2"%string; "WeightLimit"%string] [] (TVariant [(Variant "Unlimited"%string [] 0%N []); (Variant "Limited"%string [(Field None 10%N (Some "u64"%string) [])] 1%N [])]) []).
Definition md_t252 : ty := (Ty ["xcm"%string; "VersionedXcm"%string] [("RuntimeCall"%string,None)] (TVariant [(Variant "V2"%string [(Field None 253%N (Some "v2::Xcm<RuntimeCall>"%string) [])] 2%N []); (Variant "V3"%string [(Field None 257%N (Some "v3::Xcm<RuntimeCall>"%string) [])] 3%N [])]) []).
Definition md_t253 : ty := (Ty ["xcm"%string; "v2"%string; "Xcm"%string] [("RuntimeCall"%string,None)] (TComposite [(Field None 254%N (Some "Vec<Instruction<RuntimeCall>>"%string) [])]) []).
Definition md_t254 : ty := (Ty [] [] (TSequence 255%N) []).
Definition md_t255 : ty := (Ty ["xcm"%string; "v2"%string; "Instruction"%string] [("RuntimeCall"%string,None)] (TVariant [(Variant "WithdrawAsset"%string [(Field None 102%N (Some "MultiAssets"%string) [])] 0%N []); (Variant "ReserveAssetDeposited"%string [(Field None 102%N (Some "MultiAssets"%string) [])] 1%N []); (Variant "ReceiveTeleportedAsset"%string [(Field None 102%N (Some "MultiAssets"%string) [])] 2%N []); (Variant "QueryResponse"%string [(Field (Some "query_id"%string) 10%N (Some "QueryId"%string) []); (Field (Some "response"%string) 244%N (Some "Response"%string) []); (Field (Some "max_weight"%string) 10%N (Some "u64"%string) [])] 3%N []); (Variant "TransferAsset"%string [(Field (Some "assets"%string) 102%N (Some "MultiAssets"%string) []); (Field (Some "beneficiary"%string) 106%N (Some "MultiLocation"%string) [])] 4%N []); (Variant "TransferReserveAsset"%string [(Field (Some "assets"%string) 102%N (Some "MultiAssets"%string) []); (Field (Some "dest"%string) 106%N (Some "MultiLocation"%string) []); (Field (Some "xcm"%string) 241%N (Some "Xcm<()>"%string) [])] 5%N []); (Variant "Transact"%string [(Field (Some "origin_type"%string) 94%N (Some "OriginKind"%string) []); (Field (Some "require_weight_at_most"%string) 10%N (Some "u64"%string) []); (Field (Some "call"%string) 256%N (Some "DoubleEncoded<RuntimeCall>"%string) [])] 6%N []); (Variant "HrmpNewChannelOpenRequest"%string [(Field (Some "sender"%string) 67%N (Some "u32"%string) []); (Field (Some "max_message_size"%string) 67%N (Some "u32"%string) []); (Field (Some "max_capacity"%string) 67%N (Some "u32"%string) [])] 7%N []); (Variant "HrmpChannelAccepted"%string [(Field (Some "recipient"%string) 67%N (Some "u32"%string) [])] 8%N []); (Variant "HrmpChannelClosing"%string [(Field (Some "initiator"%string) 67%N (Some "u32"%string) []); (Field (Some "sender"%string) 67%N (Some "u32"%string) []); (Field (Some "recipient"%string) 67%N (Some "u32"%string) [])] 9%N []); (Variant "ClearOrigin"%string [] 10%N []); (Variant "DescendOrigin"%string [(Field None 107%N (Some "InteriorMultiLocation"%string) [])] 11%N []); (Variant "ReportError"%string [(Field (Some "query_id"%string) 10%N (Some "QueryId"%string) []); (Field (Some "dest"%string) 106%N (Some "MultiLocation"%string) []); (Field (Some "max_response_weight"%string) 10%N (Some "u64"%string) [])] 12%N []); (Variant "DepositAsset"%string [(Field (Some "assets"%string) 248%N (Some "MultiAssetFilter"%string) []); (Field (Some "max_assets"%string) 67%N (Some "u32"%string) []); (Field (Some "beneficiary"%string) 106%N (Some "MultiLocation"%string) [])] 13%N []); (Variant "DepositReserveAsset"%string [(Field (Some "assets"%string) 248%N (Some "MultiAssetFilter"%string) []); (Field (Some "max_assets"%string) 67%N (Some "u32"%string) []); (Field (Some "dest"%string) 106%N (Some "MultiLocation"%string) []); (Field (Some "xcm"%string) 241%N (Some "Xcm<()>"%string) [])] 14%N []); (Variant "ExchangeAsset"%string [(Field (Some "give"%string) 248%N (Some "MultiAssetFilter"%string) []); (Field (Some "receive"%string) 102%N (Some "MultiAssets"%string) [])] 15%N []); (Variant "InitiateReserveWithdraw"%string [(Field (Some "assets"%string) 248%N (Some "MultiAssetFilter"%string) []); (Field (Some "reserve"%string) 106%N (Some "MultiLocation"%string) []); (Field (Some "xcm"%string) 241%N (Some "Xcm<()>"%string) [])] 16%N []); (Variant "InitiateTeleport"%string [(Field (Some "assets"%string) 248%N (Some "MultiAssetFilter"%string) []); (Field (Some "dest"%string) 106%N (Some "MultiLocation"%string) []); (Field (Some "xcm"%string) 241%N (Some "Xcm<()>"%string) [])] 17%N []); (Variant "QueryHolding"%string [(Field (Some "query_id"%string) 10%N (Some "QueryId"%string) []); (Field (Some "dest"%string) 106%N (Some "MultiLocation"%string) []); (Field (Some "assets"%string) 248%N (Some "MultiAssetFilter"%string) []); (Field (Some "max_response_weight"%string) 10%N (Some "u64"%string) [])] 18%N []); (Variant "BuyExecution"%string [(Field (Some "fees"%string) 104%N (Some "MultiAsset"%string) []); (Field (Some "weight_limit"%string) 251%N (Some "WeightLimit"%string) [])] 19%N []); (Variant "RefundSurplus"%string [] 20%N []); (Variant "SetErrorHandler"%string [(Field None 253%N (Some "Xcm<RuntimeCall>"%string) [])] 21%N []); (Variant "SetAppendix"%string [(Field None 253%N (Some "Xcm<RuntimeCall>"%string) [])] 22%N []); (Variant "ClearError"%string [] 23%N []); (Variant "ClaimAsset"%string [(Field (Some "assets"%string) 102%N (Some "MultiAssets"%string) []); (Field (Some "ticket"%string) 106%N (Some "MultiLocation"%string) [])] 24%N []); (Variant "Trap"%string [(Field None 10%N (Some "u64"%string) [])] 25%N []); (Variant "SubscribeVersion"%string [(Field (Some "query_id"%string) 10%N (Some "QueryId"%string) []); (Field (Some "max_response_weight"%string) 10%N (Some "u64"%string) [])] 26%N []); (Variant "UnsubscribeVersion"%string [] 27%N [])]) []).
Definition md_t256 : ty := (Ty ["xcm"%string; "double_encoded"%string; "DoubleEncoded"%string] [("T"%string,None)] (TComposite [(Field (Some "encoded"%string) 13%N (Some "Vec<u8>"%string) [])]) []).
Definition md_t257 : ty := (Ty ["xcm"%string; "v3"%string; "Xcm"%string] [("Call"%string,None)] (TComposite [(Field None 258%N (Some "Vec<Instruction<Call>>"%string) [])]) []).
Definition md_t258 : ty := (Ty [] [] (TSequence 259%N) []).
Definition md_t259 : ty := (Ty ["xcm"%string; "v3"%string; "Instruction"%string] [("Call"%string,None)] (TVariant [(Variant "WithdrawAsset"%string [(Field None 76%N (Some "MultiAssets"%string) [])] 0%N []); (Variant "ReserveAssetDeposited"%string [(Field None 76%N (Some "MultiAssets"%string) [])] 1%N []); (Variant "ReceiveTeleportedAsset"%string [(Field None 76%N (Some "MultiAssets"%string) [])] 2%N []); (Variant "QueryResponse"%string [(Field (Some "query_id"%string) 10%N (Some "QueryId"%string) []); (Field (Some "response"%string) 84%N (Some "Response"%string) []); (Field (Some "max_weight"%string) 9%N (Some "Weight"%string) []); (Field (Some "querier"%string) 93%N (Some "Option<MultiLocation>"%string) [])] 3%N []); (Variant "TransferAsset"%string [(Field (Some "assets"%string) 76%N (Some "MultiAssets"%string) []); (Field (Some "beneficiary"%string) 64%N (Some "MultiLocation"%string) [])] 4%N []); (Variant "TransferReserveAsset"%string [(Field (Some "assets"%string) 76%N (Some "MultiAssets"%string) []); (Field (Some "dest"%string) 64%N (Some "MultiLocation"%string) []); (Field (Some "xcm"%string) 73%N (Some "Xcm<()>"%string) [])] 5%N []); (Variant "Transact"%string [(Field (Some "origin_kind"%string) 94%N (Some "OriginKind"%string) []); (Field (Some "require_weight_at_most"%string) 9%N (Some "Weight"%string) []); (Field (Some "call"%string) 256%N (Some "DoubleEncoded<Call>"%string) [])] 6%N []); (Variant "HrmpNewChannelOpenRequest"%string [(Field (Some "sender"%string) 67%N (Some "u32"%string) []); (Field (Some "max_message_size"%string) 67%N (Some "u32"%string) []); (Field (Some "max_capacity"%string) 67%N (Some "u32"%string) [])] 7%N []); (Variant "HrmpChannelAccepted"%string [(Field (Some "recipient"%string) 67%N (Some "u32"%string) [])] 8%N []); (Variant "HrmpChannelClosing"%string [(Field (Some "initiator"%string) 67%N (Some "u32"%string) []); (Field (Some "sender"%string) 67%N (Some "u32"%string) []); (Field (Some "recipient"%string) 67%N (Some "u32"%string) [])] 9%N []); (Variant "ClearOrigin"%string [] 10%N []); (Variant "DescendOrigin"%string [(Field None 65%N (Some "InteriorMultiLocation"%string) [])] 11%N []); (Variant "ReportError"%string [(Field None 96%N (Some "QueryResponseInfo"%string) [])] 12%N []); (Variant "DepositAsset"%string [(Field (Some "assets"%string) 97%N (Some "MultiAssetFilter"%string) []); (Field (Some "beneficiary"%string) 64%N (Some "MultiLocation"%string) [])] 13%N []); (Variant "DepositReserveAsset"%string [(Field (Some "assets"%string) 97%N (Some "MultiAssetFilter"%string) []); (Field (Some "dest"%string) 64%N (Some "MultiLocation"%string) []); (Field (Some "xcm"%string) 73%N (Some "Xcm<()>"%string) [])] 14%N []); (Variant "ExchangeAsset"%string [(Field (Some "give"%string) 97%N (Some "MultiAssetFilter"%string) []); (Field (Some "want"%string) 76%N (Some "MultiAssets"%string) []); (Field (Some "maximal"%string) 49%N (Some "bool"%string) [])] 15%N []); (Variant "InitiateReserveWithdraw"%string [(Field (Some "assets"%string) 97%N (Some "MultiAssetFilter"%string) []); (Field (Some "reserve"%string) 64%N (Some "MultiLocation"%string) []); (Field (Some "xcm"%string) 73%N (Some "Xcm<()>"%string) [])] 16%N []); (Variant "InitiateTeleport"%string [(Field (Some "assets"%string) 97%N (Some "MultiAssetFilter"%string) []); (Field (Some "dest"%string) 64%N (Some "MultiLocation"%string) []); (Field (Some "xcm"%string) 73%N (Some "Xcm<()>"%string) [])] 17%N []); (Variant "ReportHolding"%string [(Field (Some "response_info"%string) 96%N (Some "QueryResponseInfo"%string) []); (Field (Some "assets"%string) 97%N (Some "MultiAssetFilter"%string) [])] 18%N []); (Variant "BuyExecution"%string [(Field (Some "fees"%string) 78%N (Some "MultiAsset"%string) []); (Field (Some "weight_limit"%string) 100%N (Some "WeightLimit"%string) [])] 19%N []); (Variant "RefundSurplus"%string [] 20%N []); (Variant "SetErrorHandler"%string [(Field None 257%N (Some "Xcm<Call>"%string) [])] 21%N []); (Variant "SetAppendix"%string [(Field None 257%N (Some "Xcm<Call>"%string) [])] 22%N []); (Variant "ClearError"%string [] 23%N []); (Variant "ClaimAsset"%string [(Field (Some "assets"%string) 76%N (Some "MultiAssets"%string) []); (Field (Some "ticket"%string) 64%N (Some "MultiLocation"%string) [])] 24%N []); (Variant "Trap"%string [(Field None 10%N (Some "u64"%string) [])] 25%N []); (Variant "SubscribeVersion"%string [(Field (Some "query_id"%string) 10%N (Some "QueryId"%string) []); (Field (Some "max_response_weight"%string) 9%N (Some "Weight"%string) [])] 26%N []); (Variant "UnsubscribeVersion"%string [] 27%N []); (Variant "BurnAsset"%string [(Field None 76%N (Some "MultiAssets"%string) [])] 28%N []); (Variant "ExpectAsset"%string [(Field None 76%N (Some "MultiAssets"%string) [])] 29%N []); (Variant "ExpectOrigin"%string [(Field None 93%N (Some "Option<MultiLocation>"%string) [])] 30%N []); (Variant "ExpectError"%string [(Field None 85%N (Some "Option<(u32, Error)>"%string) [])] 31%N []); (Variant "ExpectTransactStatus"%string [(Field None 91%N (Some "MaybeErrorCode"%string) [])] 32%N []); (Variant "QueryPallet"%string [(Field (Some "module_name"%string) 13%N (Some "Vec<u8>"%string) []); (Field (Some "response_info"%string) 96%N (Some "QueryResponseInfo"%string) [])] 33%N []); (Variant "ExpectPallet"%string [(Field (Some "index"%string) 67%N (Some "u32"%string) []); (Field (Some "name"%string) 13%N (Some "Vec<u8>"%string) []); (Field (Some "module_name"%string) 13%N (Some "Vec<u8>"%string) []); (Field (Some "crate_major"%string) 67%N (Some "u32"%string) []); (Field (Some "min_crate_minor"%string) 67%N (Some "u32"%string) [])] 34%N []); (Variant "ReportTransactStatus"%string [(Field None 96%N (Some "QueryResponseInfo"%string) [])] 35%N []); (Variant "ClearTransactStatus"%string [] 36%N []); (Variant "UniversalOrigin"%string [(Field None 66%N (Some "Junction"%string) [])] 37%N []); (Variant "ExportMessage"%string [(Field (Some "network"%string) 69%N (Some "NetworkId"%string) []); (Field (Some "destination"%string) 65%N (Some "InteriorMultiLocation"%string) []); (Field (Some "xcm"%string) 73%N (Some "Xcm<()>"%string) [])] 38%N []); (Variant "LockAsset"%string [(Field (Some "asset"%string) 78%N (Some "MultiAsset"%string) []); (Field (Some "unlocker"%string) 64%N (Some "MultiLocation"%string) [])] 39%N []); (Variant "UnlockAsset"%string [(Field (Some "asset"%string) 78%N (Some "MultiAsset"%string) []); (Field (Some "target"%string) 64%N (Some "MultiLocation"%string) [])] 40%N []); (Variant "NoteUnlockable"%string [(Field (Some "asset"%string) 78%N (Some "MultiAsset"%string) []); (Field (Some "owner"%string) 64%N (Some "MultiLocation"%string) [])] 41%N []); (Variant "RequestUnlock"%string [(Field (Some "asset"%string) 78%N (Some "MultiAsset"%string) []); (Field (Some "locker"%string) 64%N (Some "MultiLocation"%string) [])] 42%N []); (Variant "SetFeesMode"%string [(Field (Some "jit_withdraw"%string) 49%N (Some "bool"%string) [])] 43%N []); (Variant "SetTopic"%string [(Field None 1%N (Some "[u8; 32]"%string) [])] 44%N []); (Variant "ClearTopic"%string [] 45%N []); (Variant "AliasOrigin"%string [(Field None 64%N (Some "MultiLocation"%string) [])] 46%N []); (Variant "UnpaidExecution"%string [(Field (Some "weight_limit"%string) 100%N (Some "WeightLimit"%string) []); (Field (Some "check_origin"%string) 93%N (Some "Option<MultiLocation>"%string) [])] 47%N [])]) []).
Definition md_t260 : ty := (Ty ["Option"%string] [("T"%string,(Some 4%N))] (TVariant [(Variant "None"%string [] 0%N []); (Variant "Some"%string [(Field None 4%N None [])] 1%N [])]) []).
Definition md_t261 : ty := (Ty ["cumulus_pallet_xcm"%string; "pallet"%string; "Call"%string] [("T"%string,None)] (TVariant []) ["Contains one variant per dispatchable that can be called by an extrinsic."%string]).
Definition md_t262 : ty := (Ty ["cumulus_pallet_dmp_queue"%string; "pallet"%string; "Call"%string] [("T"%string,None)] (TVariant [(Variant "service_overweight"%string [(Field (Some "index"%string) 11%N (Some "OverweightIndex"%string) []); (Field (Some "weight_limit"%string) 9%N (Some "Weight"%string) [])] 0%N ["Service a single overweight message."%string])]) ["Contains one variant per dispatchable that can be called by an extrinsic."%string]).
Definition md_t263 : ty := (Ty ["pallet_xc_asset_config"%string; "pallet"%string; "Call"%string] [("T"%string,None)] (TVariant [(Variant "register_asset_location"%string [(Field (Some "asset_location"%string) 115%N (Some "Box<VersionedMultiLocation>"%string) []); (Field (Some "asset_id"%string) 70%N (Some "T::AssetId"%string) [])] 0%N ["Register new asset location to asset Id mapping."%string; ""%string; "This makes the asset eligible for XCM interaction."%string]); (Variant "set_asset_units_per_second"%string [(Field (Some "asset_location"%string) 115%N (Some "Box<VersionedMultiLocation>"%string) []); (Field (Some "units_per_second"%string) 70%N (Some "u128"%string) [])] 1%N ["Change the amount of units we are charging per execution second"%string; "for a given AssetLocation."%string]); (Variant "change_existing_asset_location"%string [(Field (Some "new_asset_location"%string) 115%N (Some "Box<VersionedMultiLocation>"%string) []); (Field (Some "asset_id"%string) 70%N (Some "T::AssetId"%string) [])] 2%N ["Change the xcm type mapping for a given asset Id."%string; "The new asset type will inherit old `units per second` value."%string]); (Variant "remove_payment_asset"%string [(Field (Some "asset_location"%string) 115%N (Some "Box<VersionedMultiLocation>"%string) [])] 3%N ["Removes asset from the set of supported payment assets."%string; ""%string; "The asset can still be interacted with via XCM but it cannot be used to pay for execution time."%string]); (Variant "remove_asset"%string [(Field (Some "asset_id"%string) 70%N (Some "T::AssetId"%string) [])] 4%N ["Removes all information related to asset, removing it from XCM support."%string])]) ["Contains one variant per dispatchable that can be called by an extrinsic."%string]).
Definition md_t264 : ty := (Ty ["orml_xtokens"%string; "module"%string; "Call"%string] [("T"%string,None)] (TVariant [(Variant "transfer"%string [(Field (Some "currency_id"%string) 6%N (Some "T::CurrencyId"%string) []); (Field (Some "amount"%string) 6%N (Some "T::Balance"%string) []); (Field (Some "dest"%string) 115%N (Some "Box<VersionedMultiLocation>"%string) []); (Field (Some "dest_weight_limit"%string) 100%N (Some "WeightLimit"%string) [])] 0%N ["Transfer native currencies."%string; ""%string; "`dest_weight_limit` is the weight for XCM execution on the dest"%string; "chain, and it would be charged from the transferred assets. If set"%string; "below requirements, the execution may fail and assets wouldn't be"%string; "received."%string; ""%string; "It's a no-op if any error on local XCM execution or message sending."%string; "Note sending assets out per se doesn't guarantee they would be"%string; "received. Receiving depends on if the XCM message could be delivered"%string; "by the network, and if the receiving chain would handle"%string; "messages correctly."%string]); (Variant "transfer_multiasset"%string [(Field (Some "asset"%string) 265%N (Some "Box<VersionedMultiAsset>"%string) []); (Field (Some "dest"%string) 115%N (Some "Box<VersionedMultiLocation>"%string) []); (Field (Some "dest_weight_limit"%string) 100%N (Some "WeightLimit"%string) [])] 1%N ["Transfer `MultiAsset`."%string; ""%string; "`dest_weight_limit` is the weight for XCM execution on the dest"%string; "chain, and it would be charged from the transferred assets. If set"%string; "below requirements, the execution may fail and assets wouldn't be"%string; "received."%string; ""%string; "It's a no-op if any error on local XCM execution or message sending."%string; "Note sending assets out per se doesn't guarantee they would be"%string; "received. Receiving depends on if the XCM message could be delivered"%string; "by the network, and if the receiving chain would handle"%string; "messages correctly."%string]); (Variant "transfer_with_fee"%string [(Field (Some "currency_id"%string) 6%N (Some "T::CurrencyId"%string) []); (Field (Some "amount"%string) 6%N (Some "T::Balance"%string) []); (Field (Some "fee"%string) 6%N (Some "T::Balance"%string) []); (Field (Some "dest"%string) 115%N (Some "Box<VersionedMultiLocation>"%string) []); (Field (Some "dest_weight_limit"%string) 100%N (Some "WeightLimit"%string) [])] 2%N ["Transfer native currencies specifying the fee and amount as"%string; "separate."%string; ""%string; "`dest_weight_limit` is the weight for XCM execution on the dest"%string; "chain, and it would be charged from the transferred assets. If set"%string; "below requirements, the execution may fail and assets wouldn't be"%string; "received."%string; ""%string; "`fee` is the amount to be spent to pay for execution in destination"%string; "chain. Both fee and amount will be subtracted form the callers"%string; "balance."%string; ""%string; "If `fee` is not high enough to cover for the execution costs in the"%string; "destination chain, then the assets will be trapped in the"%string; "destination chain"%string; ""%string; "It's a no-op if any error on local XCM execution or message sending."%string; "Note sending assets out per se doesn't guarantee they would be"%string; "received. Receiving depends on if the XCM message could be delivered"%string; "by the network, and if the receiving chain would handle"%string; "messages correctly."%string]); (Variant "transfer_multiasset_with_fee"%string [(Field (Some "asset"%string) 265%N (Some "Box<VersionedMultiAsset>"%string) []); (Field (Some "fee"%string) 265%N (Some "Box<VersionedMultiAsset>"%string) []); (Field (Some "dest"%string) 115%N (Some "Box<VersionedMultiLocation>"%string) []); (Field (Some "dest_weight_limit"%string) 100%N (Some "WeightLimit"%string) [])] 3%N ["Transfer `MultiAsset` specifying the fee and amount as separate."%string; ""%string; "`dest_weight_limit` is the weight for XCM execution on the dest"%string; "chain, and it would be charged from the transferred assets. If set"%string; "below requirements, the execution may fail and assets wouldn't be"%string; "received."%string; ""%string; "`fee` is the multiasset to be spent to pay for execution in"%string; "destination chain. Both fee and amount will be subtracted form the"%string; "callers balance For now we only accept fee and asset having the same"%string; "`MultiLocation` id."%string; ""%string; "If `fee` is not high enough to cover for the execution costs in the"%string; "destination chain, then the assets will be trapped in the"%string; "destination chain"%string; ""%string; "It's a no-op if any error on local XCM execution or message sending."%string; "Note sending assets out per se doesn't guarantee they would be"%string; "received. Receiving depends on if the XCM message could be delivered"%string; "by the network, and if the receiving chain would handle"%string; "messages correctly."%string]); (Variant "transfer_multicurrencies"%string [(Field (Some "currencies"%string) 266%N (Some "Vec<(T::CurrencyId, T::Balance)>"%string) []); (Field (Some "fee_item"%string) 4%N (Some "u32"%string) []); (Field (Some "dest"%string) 115%N (Some "Box<VersionedMultiLocation>"%string) []); (Field (Some "dest_weight_limit"%string) 100%N (Some "WeightLimit"%string) [])] 4%N ["Transfer several currencies specifying the item to be used as fee"%string; ""%string; "`dest_weight_limit` is the weight for XCM execution on the dest"%string; "chain, and it would be charged from the transferred assets. If set"%string; "below requirements, the execution may fail and assets wouldn't be"%string; "received."%string; ""%string; "`fee_item` is index of the currencies tuple that we want to use for"%string; "payment"%string; ""%string; "It's a no-op if any error on local XCM execution or message sending."%string; "Note sending assets out per se doesn't guarantee they would be"%string; "received. Receiving depends on if the XCM message could be delivered"%string; "by the network, and if the receiving chain would handle"%string; "messages correctly."%string]); (Variant "transfer_multiassets"%string [(Field (Some "assets"%string) 101%N (Some "Box<VersionedMultiAssets>"%string) []); (Field (Some "fee_item"%string) 4%N (Some "u32"%string) []); (Field (Some "dest"%string) 115%N (Some "Box<VersionedMultiLocation>"%string) []); (Field (Some "dest_weight_limit"%string) 100%N (Some "WeightLimit"%string) [])] 5%N ["Transfer several `MultiAsset` specifying the item to be used as fee"%string; ""%string; "`dest_weight_limit` is the weight for XCM execution on the dest"%string; "chain, and it would be charged from the transferred assets. If set"%string; "below requirements, the execution may fail and assets wouldn't be"%string; "received."%string; ""%string; "`fee_item` is index of the MultiAssets that we want to use for"%string; "payment"%string; ""%string; "It's a no-op if any error on local XCM execution or message sending."%string; "Note sending assets out per se doesn't guarantee they would be"%string; "received. Receiving depends on if the XCM message could be delivered"%string; "by the network, and if the receiving chain would handle"%string; "messages correctly."%string])]) ["Contains one variant per dispatchable that can be called by an extrinsic."%string]).
Definition md_t265 : ty := (Ty ["xcm"%string; "VersionedMultiAsset"%string] [] (TVariant [(Variant "V2"%string [(Field None 104%N (Some "v2::MultiAsset"%string) [])] 1%N []); (Variant "V3"%string [(Field None 78%N (Some "v3::MultiAsset"%string) [])] 3%N [])]) []).
Definition md_t266 : ty := (Ty [] [] (TSequence 267%N) []).
Definition md_t267 : ty := (Ty [] [] (TTuple [6%N; 6%N]) []).
Definition md_t268 : ty := (Ty ["pallet_evm"%string; "pallet"%string; "Call"%string] [("T"%string,None)] (TVariant [(Variant "withdraw"%string [(Field (Some "address"%string) 47%N (Some "H160"%string) []); (Field (Some "value"%string) 6%N (Some "BalanceOf<T>"%string) [])] 0%N ["Withdraw balance from EVM into currency/balances pallet."%string]); (Variant "call"%string [(Field (Some "source"%string) 47%N (Some "H160"%string) []); (Field (Some "target"%string) 47%N (Some "H160"%string) []); (Field (Some "input"%string) 13%N (Some "Vec<u8>"%string) []); (Field (Some "value"%string) 134%N (Some "U256"%string) []); (Field (Some "gas_limit"%string) 11%N (Some "u64"%string) []); (Field (Some "max_fee_per_gas"%string) 134%N (Some "U256"%string) []); (Field (Some "max_priority_fee_per_gas"%string) 269%N (Some "Option<U256>"%string) []); (Field (Some "nonce"%string) 269%N (Some "Option<U256>"%string) []); (Field (Some "access_list"%string) 270%N (Some "Vec<(H160, Vec<H256>)>"%string) [])] 1%N ["Issue an EVM call operation. This is similar to a message call transaction in Ethereum."%string]); (Variant "create"%string [(Field (Some "source"%string) 47%N (Some "H160"%string) []); (Field (Some "init"%string) 13%N (Some "Vec<u8>"%string) []); (Field (Some "value"%string) 134%N (Some "U256"%string) []); (Field (Some "gas_limit"%string) 11%N (Some "u64"%string) []); (Field (Some "max_fee_per_gas"%string) 134%N (Some "U256"%string) []); (Field (Some "max_priority_fee_per_gas"%string) 269%N (Some "Option<U256>"%string) []); (Field (Some "nonce"%string) 269%N (Some "Option<U256>"%string) []); (Field (Some "access_list"%string) 270%N (Some "Vec<(H160, Vec<H256>)>"%string) [])] 2%N ["Issue an EVM create operation. This is similar to a contract creation transaction in"%string; "Ethereum."%string]); (Variant "create2"%string [(Field (Some "source"%string) 47%N (Some "H160"%string) []); (Field (Some "init"%string) 13%N (Some "Vec<u8>"%string) []); (Field (Some "salt"%string) 12%N (Some "H256"%string) []); (Field (Some "value"%string) 134%N (Some "U256"%string) []); (Field (Some "gas_limit"%string) 11%N (Some "u64"%string) []); (Field (Some "max_fee_per_gas"%string) 134%N (Some "U256"%string) []); (Field (Some "max_priority_fee_per_gas"%string) 269%N (Some "Option<U256>"%string) []); (Field (Some "nonce"%string) 269%N (Some "Option<U256>"%string) []); (Field (Some "access_list"%string) 270%N (Some "Vec<(H160, Vec<H256>)>"%string) [])] 3%N ["Issue an EVM create2 operation."%string])]) ["Contains one variant per dispatchable that can be called by an extrinsic."%string]).
Definition md_t269 : ty := (Ty ["Option"%string] [("T"%string,(Some 134%N))] (TVariant [(Variant "None"%string [] 0%N []); (Variant "Some"%string [(Field None 134%N None [])] 1%N [])]) []).
Definition md_t270 : ty := (Ty [] [] (TSequence 271%N) []).
Definition md_t271 : ty := (Ty [] [] (TTuple [47%N; 122%N]) []).
Definition md_t272 : ty := (Ty ["pallet_ethereum"%string; "pallet"%string; "Call"%string] [("T"%string,None)] (TVariant [(Variant "transact"%string [(Field (Some "transaction"%string) 273%N (Some "Transaction"%string) [])] 0%N ["Transact an Ethereum transaction."%string])]) ["Contains one variant per dispatchable that can be called by an extrinsic."%string]).
Definition md_t273 : ty := (Ty ["ethereum"%string; "transaction"%string; "TransactionV2"%string] [] (TVariant [(Variant "Legacy"%string [(Field None 274%N (Some "LegacyTransaction"%string) [])] 0%N []); (Variant "EIP2930"%string [(Field None 278%N (Some "EIP2930Transaction"%string) [])] 1%N []); (Variant "EIP1559"%string [(Field None 281%N (Some "EIP1559Transaction"%string) [])] 2%N [])]) []).
Definition md_t274 : ty := (Ty ["ethereum"%string; "transaction"%string; "LegacyTransaction"%string] [] (TComposite [(Field (Some "nonce"%string) 134%N (Some "U256"%string) []); (Field (Some "gas_price"%string) 134%N (Some "U256"%string) []); (Field (Some "gas_limit"%string) 134%N (Some "U256"%string) []); (Field (Some "action"%string) 275%N (Some "TransactionAction"%string) []); (Field (Some "value"%string) 134%N (Some "U256"%string) []); (Field (Some "input"%string) 13%N (Some "Bytes"%string) []); (Field (Some "signature"%string) 276%N (Some "TransactionSignature"%string) [])]) []).
Definition md_t275 : ty := (Ty ["ethereum"%string; "transaction"%string; "TransactionAction"%string] [] (TVariant [(Variant "Call"%string [(Field None 47%N (Some "H160"%string) [])] 0%N []); (Variant "Create"%string [] 1%N [])]) []).
Definition md_t276 : ty := (Ty ["ethereum"%string; "transaction"%string; "TransactionSignature"%string] [] (TComposite [(Field (Some "v"%string) 277%N (Some "TransactionRecoveryId"%string) []); (Field (Some "r"%string) 12%N (Some "H256"%string) []); (Field (Some "s"%string) 12%N (Some "H256"%string) [])]) []).
Definition md_t277 : ty := (Ty ["ethereum"%string; "transaction"%string; "TransactionRecoveryId"%string] [] (TComposite [(Field None 11%N (Some "u64"%string) [])]) []).
Definition md_t278 : ty := (Ty ["ethereum"%string; "transaction"%string; "EIP2930Transaction"%string] [] (TComposite [(Field (Some "chain_id"%string) 11%N (Some "u64"%string) []); (Field (Some "nonce"%string) 134%N (Some "U256"%string) []); (Field (Some "gas_price"%string) 134%N (Some "U256"%string) []); (Field (Some "gas_limit"%string) 134%N (Some "U256"%string) []); (Field (Some "action"%string) 275%N (Some "TransactionAction"%string) []); (Field (Some "value"%string) 134%N (Some "U256"%string) []); (Field (Some "input"%string) 13%N (Some "Bytes"%string) []); (Field (Some "access_list"%string) 279%N (Some "AccessList"%string) []); (Field (Some "odd_y_parity"%string) 49%N (Some "bool"%string) []); (Field (Some "r"%string) 12%N (Some "H256"%string) []); (Field (Some "s"%string) 12%N (Some "H256"%string) [])]) []).
Definition md_t279 : ty := (Ty [] [] (TSequence 280%N) []).
Definition md_t280 : ty := (Ty ["ethereum"%string; "transaction"%string; "AccessListItem"%string] [] (TComposite [(Field (Some "address"%string) 47%N (Some "Address"%string) []); (Field (Some "storage_keys"%string) 122%N (Some "Vec<H256>"%string) [])]) []).
Definition md_t281 : ty := (Ty ["ethereum"%string; "transaction"%string; "EIP1559Transaction"%string] [] (TComposite [(Field (Some "chain_id"%string) 11%N (Some "u64"%string) []); (Field (Some "nonce"%string) 134%N (Some "U256"%string) []); (Field (Some "max_priority_fee_per_gas"%string) 134%N (Some "U256"%string) []); (Field (Some "max_fee_per_gas"%string) 134%N (Some "U256"%string) []); (Field (Some "gas_limit"%string) 134%N (Some "U256"%string) []); (Field (Some "action"%string) 275%N (Some "TransactionAction"%string) []); (Field (Some "value"%string) 134%N (Some "U256"%string) []); (Field (Some "input"%string) 13%N (Some "Bytes"%string) []); (Field (Some "access_list"%string) 279%N (Some "AccessList"%string) []); (Field (Some "odd_y_parity"%string) 49%N (Some "bool"%string) []); (Field (Some "r"%string) 12%N (Some "H256"%string) []); (Field (Some "s"%string) 12%N (Some "H256"%string) [])]) []).
Definition md_t282 : ty := (Ty ["pallet_custom_signatures"%string; "pallet"%string; "Call"%string] [("T"%string,None)] (TVariant [(Variant "call"%string [(Field (Some "call"%string) 164%N (Some "Box<<T as Config>::RuntimeCall>"%string) []); (Field (Some "signer"%string) 0%N (Some "T::AccountId"%string) []); (Field (Some "signature"%string) 13%N (Some "Vec<u8>"%string) []); (Field (Some "nonce"%string) 67%N (Some "T::Index"%string) [])] 0%N ["# <weight>"%string; "- O(1)."%string; "- Limited storage reads."%string; "- One DB write (event)."%string; "- Weight of derivative `call` execution + read/write + 10_000."%string; "# </weight>"%string])]) ["Contains one variant per dispatchable that can be called by an extrinsic."%string]).
Definition md_t283 : ty := (Ty ["pallet_base_fee"%string; "pallet"%string; "Call"%string] [("T"%string,None)] (TVariant [(Variant "set_base_fee_per_gas"%string [(Field (Some "fee"%string) 134%N (Some "U256"%string) [])] 0%N []); (Variant "set_elasticity"%string [(Field (Some "elasticity"%string) 136%N (Some "Permill"%string) [])] 1%N [])]) ["Contains one variant per dispatchable that can be called by an extrinsic."%string]).
Definition md_t284 : ty := (Ty ["pallet_contracts"%string; "pallet"%string; "Call"%string] [("T"%string,None)] (TVariant [(Variant "call_old_weight"%string [(Field (Some "dest"%string) 166%N (Some "AccountIdLookupOf<T>"%string) []); (Field (Some "value"%string) 70%N (Some "BalanceOf<T>"%string) []); (Field (Some "gas_limit"%string) 10%N (Some "OldWeight"%string) []); (Field (Some "storage_deposit_limit"%string) 285%N (Some "Option<<BalanceOf<T> as codec::HasCompact>::Type>"%string) []); (Field (Some "data"%string) 13%N (Some "Vec<u8>"%string) [])] 0%N ["Deprecated version if [`Self::call`] for use in an in-storage `Call`."%string]); (Variant "instantiate_with_code_old_weight"%string [(Field (Some "value"%string) 70%N (Some "BalanceOf<T>"%string) []); (Field (Some "gas_limit"%string) 10%N (Some "OldWeight"%string) []); (Field (Some "storage_deposit_limit"%string) 285%N (Some "Option<<BalanceOf<T> as codec::HasCompact>::Type>"%string) []); (Field (Some "code"%string) 13%N (Some "Vec<u8>"%string) []); (Field (Some "data"%string) 13%N (Some "Vec<u8>"%string) []); (Field (Some "salt"%string) 13%N (Some "Vec<u8>"%string) [])] 1%N ["Deprecated version if [`Self::instantiate_with_code`] for use in an in-storage `Call`."%string]); (Variant "instantiate_old_weight"%string [(Field (Some "value"%string) 70%N (Some "BalanceOf<T>"%string) []); (Field (Some "gas_limit"%string) 10%N (Some "OldWeight"%string) []); (Field (Some "storage_deposit_limit"%string) 285%N (Some "Option<<BalanceOf<T> as codec::HasCompact>::Type>"%string) []); (Field (Some "code_hash"%string) 12%N (Some "CodeHash<T>"%string) []); (Field (Some "data"%string) 13%N (Some "Vec<u8>"%string) []); (Field (Some "salt"%string) 13%N (Some "Vec<u8>"%string) [])] 2%N ["Deprecated version if [`Self::instantiate`] for use in an in-storage `Call`."%string]); (Variant "upload_code"%string [(Field (Some "code"%string) 13%N (Some "Vec<u8>"%string) []); (Field (Some "storage_deposit_limit"%string) 285%N (Some "Option<<BalanceOf<T> as codec::HasCompact>::Type>"%string) []); (Field (Some "determinism"%string) 286%N (Some "Determinism"%string) [])] 3%N ["Upload new `code` without instantiating a contract from it."%string; ""%string; "If the code does not already exist a deposit is reserved from the caller"%string; "and unreserved only when [`Self::remove_code`] is called. The size of the reserve"%string; "depends on the instrumented size of the the supplied `code`."%string; ""%string; "If the code already exists in storage it will still return `Ok` and upgrades"%string; "the in storage version to the current"%string; "[`InstructionWeights::version`](InstructionWeights)."%string; ""%string; "- `determinism`: If this is set to any other value but [`Determinism::Enforced`] then"%string; "  the only way to use this code is to delegate call into it from an offchain execution."%string; "  Set to [`Determinism::Enforced`] if in doubt."%string; ""%string; "# Note"%string; ""%string; "Anyone can instantiate a contract from any uploaded code and thus prevent its removal."%string; "To avoid this situation a constructor could employ access control so that it can"%string; "only be instantiated by permissioned entities. The same is true when uploading"%string; "through [`Self::instantiate_with_code`]."%string]); (Variant "remove_code"%string [(Field (Some "code_hash"%string) 12%N (Some "CodeHash<T>"%string) [])] 4%N ["Remove the code stored under `code_hash` and refund the deposit to its owner."%string; ""%string; "A code can only be removed by its original uploader (its owner) and only if it is"%string; "not used by any contract."%string]); (Variant "set_code"%string [(Field (Some "dest"%string) 166%N (Some "AccountIdLookupOf<T>"%string) []); (Field (Some "code_hash"%string) 12%N (Some "CodeHash<T>"%string) [])] 5%N ["Privileged function that changes the code of an existing contract."%string; ""%string; "This takes care of updating refcounts and all other necessary operations. Returns"%string; "an error if either the `code_hash` or `dest` do not exist."%string; ""%string; "# Note"%string; ""%string; "This does **not** change the address of the contract in question. This means"%string; "that the contract address is no longer derived from its code hash after calling"%string; "this dispatchable."%string]); (Variant "call"%string [(Field (Some "dest"%string) 166%N (Some "AccountIdLookupOf<T>"%string) []); (Field (Some "value"%string) 70%N (Some "BalanceOf<T>"%string) []); (Field (Some "gas_limit"%string) 9%N (Some "Weight"%string) []); (Field (Some "storage_deposit_limit"%string) 285%N (Some "Option<<BalanceOf<T> as codec::HasCompact>::Type>"%string) []); (Field (Some "data"%string) 13%N (Some "Vec<u8>"%string) [])] 6%N ["Makes a call to an account, optionally transferring some balance."%string; ""%string; "# Parameters"%string; ""%string; "* `dest`: Address of the contract to call."%string; "* `value`: The balance to transfer from the `origin` to `dest`."%string; "* `gas_limit`: The gas limit enforced when executing the constructor."%string; "* `storage_deposit_limit`: The maximum amount of balance that can be charged from the"%string; "  caller to pay for the storage consumed."%string; "* `data`: The input data to pass to the contract."%string; ""%string; "* If the account is a smart-contract account, the associated code will be"%string; "executed and any value will be transferred."%string; "* If the account is a regular account, any value will be transferred."%string; "* If no account exists and the call value is not less than `existential_deposit`,"%string; "a regular account will be created and any value will be transferred."%string]); (Variant "instantiate_with_code"%string [(Field (Some "value"%string) 70%N (Some "BalanceOf<T>"%string) []); (Field (Some "gas_limit"%string) 9%N (Some "Weight"%string) []); (Field (Some "storage_deposit_limit"%string) 285%N (Some "Option<<BalanceOf<T> as codec::HasCompact>::Type>"%string) []); (Field (Some "code"%string) 13%N (Some "Vec<u8>"%string) []); (Field (Some "data"%string) 13%N (Some "Vec<u8>"%string) []); (Field (Some "salt"%string) 13%N (Some "Vec<u8>"%string) [])] 7%N ["Instantiates a new contract from the supplied `code` optionally transferring"%string; "some balance."%string; ""%string; "This dispatchable has the same effect as calling [`Self::upload_code`] +"%string; "[`Self::instantiate`]. Bundling them together provides efficiency gains. Please"%string; "also check the documentation of [`Self::upload_code`]."%string; ""%string; "# Parameters"%string; ""%string; "* `value`: The balance to transfer from the `origin` to the newly created contract."%string; "* `gas_limit`: The gas limit enforced when executing the constructor."%string; "* `storage_deposit_limit`: The maximum amount of balance that can be charged/reserved"%string; "  from the caller to pay for the storage consumed."%string; "* `code`: The contract code to deploy in raw bytes."%string; "* `data`: The input data to pass to the contract constructor."%string; "* `salt`: Used for the address derivation. See [`Pallet::contract_address`]."%string; ""%string; "Instantiation is executed as follows:"%string; ""%string; "- The supplied `code` is instrumented, deployed, and a `code_hash` is created for that"%string; "  code."%string; "- If the `code_hash` already exists on the chain the underlying `code` will be shared."%string; "- The destination address is computed based on the sender, code_hash and the salt."%string; "- The smart-contract account is created at the computed address."%string; "- The `value` is transferred to the new account."%string; "- The `deploy` function is executed in the context of the newly-created account."%string]); (Variant "instantiate"%string [(Field (Some "value"%string) 70%N (Some "BalanceOf<T>"%string) []); (Field (Some "gas_limit"%string) 9%N (Some "Weight"%string) []); (Field (Some "storage_deposit_limit"%string) 285%N (Some "Option<<BalanceOf<T> as codec::HasCompact>::Type>"%string) []); (Field (Some "code_hash"%string) 12%N (Some "CodeHash<T>"%string) []); (Field (Some "data"%string) 13%N (Some "Vec<u8>"%string) []); (Field (Some "salt"%string) 13%N (Some "Vec<u8>"%string) [])] 8%N ["Instantiates a contract from a previously deployed wasm binary."%string; ""%string; "This function is identical to [`Self::instantiate_with_code`] but without the"%string; "code deployment step. Instead, the `code_hash` of an on-chain deployed wasm binary"%string; "must be supplied."%string]); (Variant "migrate"%string [(Field (Some "weight_limit"%string) 9%N (Some "Weight"%string) [])] 9%N ["When a migration is in progress, this dispatchable can be used to run migration steps."%string; "Calls that contribute to advancing the migration have their fees waived, as it's helpful"%string; "for the chain. Note that while the migration is in progress, the pallet will also"%string; "leverage the `on_idle` hooks to run migration steps."%string])]) ["Contains one variant per dispatchable that can be called by an extrinsic."%string]).
Definition md_t285 : ty := (Ty ["Option"%string] [("T"%string,(Some 70%N))] (TVariant [(Variant "None"%string [] 0%N []); (Variant "Some"%string [(Field None 70%N None [])] 1%N [])]) []).
Definition md_t286 : ty := (Ty ["pallet_contracts"%string; "wasm"%string; "Determinism"%string] [] (TVariant [(Variant "Enforced"%string [] 0%N []); (Variant "Relaxed"%string [] 1%N [])]) []).
Definition md_t287 : ty := (Ty ["pallet_sudo"%string; "pallet"%string; "Call"%string] [("T"%string,None)] (TVariant [(Variant "sudo"%string [(Field (Some "call"%string) 164%N (Some "Box<<T as Config>::RuntimeCall>"%string) [])] 0%N ["Authenticates the sudo key and dispatches a function call with `Root` origin."%string; ""%string; "The dispatch origin for this call must be _Signed_."%string; ""%string; "## Complexity"%string; "- O(1)."%string]); (Variant "sudo_unchecked_weight"%string [(Field (Some "call"%string) 164%N (Some "Box<<T as Config>::RuntimeCall>"%string) []); (Field (Some "weight"%string) 9%N (Some "Weight"%string) [])] 1%N ["Authenticates the sudo key and dispatches a function call with `Root` origin."%string; "This function does not check the weight of the call, and instead allows the"%string; "Sudo user to specify the weight of the call."%string; ""%string; "The dispatch origin for this call must be _Signed_."%string; ""%string; "## Complexity"%string; "- O(1)."%string]); (Variant "set_key"%string [(Field (Some "new"%string) 166%N (Some "AccountIdLookupOf<T>"%string) [])] 2%N ["Authenticates the current sudo key and sets the given AccountId (`new`) as the new sudo"%string; "key."%string; ""%string; "The dispatch origin for this call must be _Signed_."%string; ""%string; "## Complexity"%string; "- O(1)."%string]); (Variant "sudo_as"%string [(Field (Some "who"%string) 166%N (Some "AccountIdLookupOf<T>"%string) []); (Field (Some "call"%string) 164%N (Some "Box<<T as Config>::RuntimeCall>"%string) [])] 3%N ["Authenticates the sudo key and dispatches a function call with `Signed` origin from"%string; "a given account."%string; ""%string; "The dispatch origin for this call must be _Signed_."%string; ""%string; "## Complexity"%string; "- O(1)."%string])]) ["Contains one variant per dispatchable that can be called by an extrinsic."%string]).
Definition md_t288 : ty := (Ty ["astar_runtime"%string; "OriginCaller"%string] [] (TVariant [(Variant "system"%string [(Field None 289%N (Some "frame_system::Origin<Runtime>"%string) [])] 10%N []); (Variant "PolkadotXcm"%string [(Field None 290%N (Some "pallet_xcm::Origin"%string) [])] 51%N []); (Variant "CumulusXcm"%string [(Field None 291%N (Some "cumulus_pallet_xcm::Origin"%string) [])] 52%N []); (Variant "Ethereum"%string [(Field None 292%N (Some "pallet_ethereum::Origin"%string) [])] 61%N []); (Variant "Void"%string [(Field None 293%N (Some "self::sp_api_hidden_includes_construct_runtime::hidden_include::Void"%string) [])] 4%N [])]) []).
Definition md_t289 : ty := (Ty ["frame_support"%string; "dispatch"%string; "RawOrigin"%string] [("AccountId"%string,(Some 0%N))] (TVariant [(Variant "Root"%string [] 0%N []); (Variant "Signed"%string [(Field None 0%N (Some "AccountId"%string) [])] 1%N []); (Variant "None"%string [] 2%N [])]) []).
Definition md_t290 : ty := (Ty ["pallet_xcm"%string; "pallet"%string; "Origin"%string] [] (TVariant [(Variant "Xcm"%string [(Field None 64%N (Some "MultiLocation"%string) [])] 0%N []); (Variant "Response"%string [(Field None 64%N (Some "MultiLocation"%string) [])] 1%N [])]) []).
Definition md_t291 : ty := (Ty ["cumulus_pallet_xcm"%string; "pallet"%string; "Origin"%string] [] (TVariant [(Variant "Relay"%string [] 0%N []); (Variant "SiblingParachain"%string [(Field None 61%N (Some "ParaId"%string) [])] 1%N [])]) []).
Definition md_t292 : ty := (Ty ["pallet_ethereum"%string; "RawOrigin"%string] [] (TVariant [(Variant "EthereumTransaction"%string [(Field None 47%N (Some "H160"%string) [])] 0%N [])]) []).
Definition md_t293 : ty := (Ty ["sp_core"%string; "Void"%string] [] (TVariant []) []).
Definition md_t294 : ty := (Ty ["pallet_utility"%string; "pallet"%string; "Error"%string] [("T"%string,None)] (TVariant [(Variant "TooManyCalls"%string [] 0%N ["Too many calls batched."%string])]) ["
			Custom [dispatch errors](https://docs.substrate.io/main-docs/build/events-errors/)
			of this pallet.
			"%string]).
Definition md_t295 : ty := (Ty ["pallet_identity"%string; "types"%string; "Registration"%string] [("Balance"%string,(Some 6%N)); ("MaxJudgements"%string,None); ("MaxAdditionalFields"%string,None)] (TComposite [(Field (Some "judgements"%string) 296%N (Some "BoundedVec<(RegistrarIndex, Judgement<Balance>), MaxJudgements>"%string) []); (Field (Some "deposit"%string) 6%N (Some "Balance"%string) []); (Field (Some "info"%string) 168%N (Some "IdentityInfo<MaxAdditionalFields>"%string) [])]) []).
Definition md_t296 : ty := (Ty ["bounded_collections"%string; "bounded_vec"%string; "BoundedVec"%string] [("T"%string,(Some 297%N)); ("S"%string,None)] (TComposite [(Field None 298%N (Some "Vec<T>"%string) [])]) []).
Definition md_t297 : ty := (Ty [] [] (TTuple [4%N; 206%N]) []).
Definition md_t298 : ty := (Ty [] [] (TSequence 297%N) []).
Definition md_t299 : ty := (Ty [] [] (TTuple [6%N; 300%N]) []).
Definition md_t300 : ty := (Ty ["bounded_collections"%string; "bounded_vec"%string; "BoundedVec"%string] [("T"%string,(Some 0%N)); ("S"%string,None)] (TComposite [(Field None 57%N (Some "Vec<T>"%string) [])]) []).
Definition md_t301 : ty := (Ty ["bounded_collections"%string; "bounded_vec"%string; "BoundedVec"%string] [("T"%string,(Some 302%N)); ("S"%string,None)] (TComposite [(Field None 304%N (Some "Vec<T>"%string) [])]) []).
Definition md_t302 : ty := (Ty ["Option"%string] [("T"%string,(Some 303%N))] (TVariant [(Variant "None"%string [] 0%N []); (Variant "Some"%string [(Field None 303%N None [])] 1%N [])]) []).
Definition md_t303 : ty := (Ty ["pallet_identity"%string; "types"%string; "RegistrarInfo"%string] [("Balance"%string,(Some 6%N)); ("AccountId"%string,(Some 0%N))] (TComposite [(Field (Some "account"%string) 0%N (Some "AccountId"%string) []); (Field (Some "fee"%string) 6%N (Some "Balance"%string) []); (Field (Some "fields"%string) 204%N (Some "IdentityFields"%string) [])]) []).
Definition md_t304 : ty := (Ty [] [] (TSequence 302%N) []).
Definition md_t305 : ty := (Ty ["pallet_identity"%string; "pallet"%string; "Error"%string] [("T"%string,None)] (TVariant [(Variant "TooManySubAccounts"%string [] 0%N ["Too many subs-accounts."%string]); (Variant "NotFound"%string [] 1%N ["Account isn't found."%string]); (Variant "NotNamed"%string [] 2%N ["Account isn't named."%string]); (Variant "EmptyIndex"%string [] 3%N ["Empty index."%string]); (Variant "FeeChanged"%string [] 4%N ["Fee is changed."%string]); (Variant "NoIdentity"%string [] 5%N ["No identity found."%string]); (Variant "StickyJudgement"%string [] 6%N ["Sticky judgement."%string]); (Variant "JudgementGiven"%string [] 7%N ["Judgement given."%string]); (Variant "InvalidJudgement"%string [] 8%N ["Invalid judgement."%string]); (Variant "InvalidIndex"%string [] 9%N ["The index is invalid."%string]); (Variant "InvalidTarget"%string [] 10%N ["The target is invalid."%string]); (Variant "TooManyFields"%string [] 11%N ["Too many additional fields."%string]); (Variant "TooManyRegistrars"%string [] 12%N ["Maximum amount of registrars reached. Cannot add any more."%string]); (Variant "AlreadyClaimed"%string [] 13%N ["Account ID is already named."%string]); (Variant "NotSub"%string [] 14%N ["Sender is not a sub-account."%string]); (Variant "NotOwned"%string [] 15%N ["Sub-account isn't owned by sender."%string]); (Variant "JudgementForDifferentIdentity"%string [] 16%N ["The provided judgement was for a different identity."%string]); (Variant "JudgementPaymentFailed"%string [] 17%N ["Error that occurs when there is an issue paying for judgement."%string])]) ["
			Custom [dispatch errors](https://docs.substrate.io/main-docs/build/events-errors/)
			of this pallet.
			"%string]).
Definition md_t306 : ty := (Ty [] [] (TTuple [0%N; 1%N]) []).
Definition md_t307 : ty := (Ty ["pallet_multisig"%string; "Multisig"%string] [("BlockNumber"%string,(Some 4%N)); ("Balance"%string,(Some 6%N)); ("AccountId"%string,(Some 0%N)); ("MaxApprovals"%string,None)] (TComposite [(Field (Some "when"%string) 35%N (Some "Timepoint<BlockNumber>"%string) []); (Field (Some "deposit"%string) 6%N (Some "Balance"%string) []); (Field (Some "depositor"%string) 0%N (Some "AccountId"%string) []); (Field (Some "approvals"%string) 308%N (Some "BoundedVec<AccountId, MaxApprovals>"%string) [])]) []).
Definition md_t308 : ty := (Ty ["bounded_collections"%string; "bounded_vec"%string; "BoundedVec"%string] [("T"%string,(Some 0%N)); ("S"%string,None)] (TComposite [(Field None 57%N (Some "Vec<T>"%string) [])]) []).
Definition md_t309 : ty := (Ty ["pallet_multisig"%string; "pallet"%string; "Error"%string] [("T"%string,None)] (TVariant [(Variant "MinimumThreshold"%string [] 0%N ["Threshold must be 2 or greater."%string]); (Variant "AlreadyApproved"%string [] 1%N ["Call is already approved by this signatory."%string]); (Variant "NoApprovalsNeeded"%string [] 2%N ["Call doesn't need any (more) approvals."%string]); (Variant "TooFewSignatories"%string [] 3%N ["There are too few signatories in the list."%string]); (Variant "TooManySignatories"%string [] 4%N ["There are too many signatories in the list."%string]); (Variant "SignatoriesOutOfOrder"%string [] 5%N ["The signatories were provided out of order; they should be ordered."%string]); (Variant "SenderInSignatories"%string [] 6%N ["The sender was contained in the other signatories; it shouldn't be."%string]); (Variant "NotFound"%string [] 7%N ["Multisig operation not found when attempting to cancel."%string]); (Variant "NotOwner"%string [] 8%N ["Only the account that originally created the multisig is able to cancel it."%string]); (Variant "NoTimepoint"%string [] 9%N ["No timepoint was given, yet the multisig operation is already underway."%string]); (Variant "WrongTimepoint"%string [] 10%N ["A different timepoint was given to the multisig operation that is underway."%string]); (Variant "UnexpectedTimepoint"%string [] 11%N ["A timepoint was given, yet no multisig operation is underway."%string]); (Variant "MaxWeightTooLow"%string [] 12%N ["The maximum weight information provided was too low."%string]); (Variant "AlreadyStored"%string [] 13%N ["The data to be stored is already stored."%string])]) ["
			Custom [dispatch errors](https://docs.substrate.io/main-docs/build/events-errors/)
			of this pallet.
			"%string]).
Definition md_t310 : ty := (Ty [] [] (TTuple [311%N; 6%N]) []).
Definition md_t311 : ty := (Ty ["bounded_collections"%string; "bounded_vec"%string; "BoundedVec"%string] [("T"%string,(Some 312%N)); ("S"%string,None)] (TComposite [(Field None 313%N (Some "Vec<T>"%string) [])]) []).
Definition md_t312 : ty := (Ty ["pallet_proxy"%string; "ProxyDefinition"%string] [("AccountId"%string,(Some 0%N)); ("ProxyType"%string,(Some 37%N)); ("BlockNumber"%string,(Some 4%N))] (TComposite [(Field (Some "delegate"%string) 0%N (Some "AccountId"%string) []); (Field (Some "proxy_type"%string) 37%N (Some "ProxyType"%string) []); (Field (Some "delay"%string) 4%N (Some "BlockNumber"%string) [])]) []).
Definition md_t313 : ty := (Ty [] [] (TSequence 312%N) []).
Definition md_t314 : ty := (Ty [] [] (TTuple [315%N; 6%N]) []).
Definition md_t315 : ty := (Ty ["bounded_collections"%string; "bounded_vec"%string; "BoundedVec"%string] [("T"%string,(Some 316%N)); ("S"%string,None)] (TComposite [(Field None 317%N (Some "Vec<T>"%string) [])]) []).
Definition md_t316 : ty := (Ty ["pallet_proxy"%string; "Announcement"%string] [("AccountId"%string,(Some 0%N)); ("Hash"%string,(Some 12%N)); ("BlockNumber"%string,(Some 4%N))] (TComposite [(Field (Some "real"%string) 0%N (Some "AccountId"%string) []); (Field (Some "call_hash"%string) 12%N (Some "Hash"%string) []); (Field (Some "height"%string) 4%N (Some "BlockNumber"%string) [])]) []).
Definition md_t317 : ty := (Ty [] [] (TSequence 316%N) []).
Definition md_t318 : ty := (Ty ["pallet_proxy"%string; "pallet"%string; "Error"%string] [("T"%string,None)] (TVariant [(Variant "TooMany"%string [] 0%N ["There are too many proxies registered or too many announcements pending."%string]); (Variant "NotFound"%string [] 1%N ["Proxy registration not found."%string]); (Variant "NotProxy"%string [] 2%N ["Sender is not a proxy of the account to be proxied."%string]); (Variant "Unproxyable"%string [] 3%N ["A call which is incompatible with the proxy type's filter was attempted."%string]); (Variant "Duplicate"%string [] 4%N ["Account is already a proxy."%string]); (Variant "NoPermission"%string [] 5%N ["Call may not be made by proxy because it may escalate its privileges."%string]); (Variant "Unannounced"%string [] 6%N ["Announcement, if made at all, was made too recently."%string]); (Variant "NoSelfProxy"%string [] 7%N ["Cannot add self as proxy."%string])]) ["
			Custom [dispatch errors](https://docs.substrate.io/main-docs/build/events-errors/)
			of this pallet.
			"%string]).
Definition md_t319 : ty := (Ty ["Option"%string] [("T"%string,(Some 320%N))] (TVariant [(Variant "None"%string [] 0%N []); (Variant "Some"%string [(Field None 320%N None [])] 1%N [])]) []).
Definition md_t320 : ty := (Ty ["polkadot_primitives"%string; "v4"%string; "UpgradeRestriction"%string] [] (TVariant [(Variant "Present"%string [] 0%N [])]) []).
Definition md_t321 : ty := (Ty ["cumulus_pallet_parachain_system"%string; "relay_state_snapshot"%string; "MessagingStateSnapshot"%string] [] (TComposite [(Field (Some "dmq_mqc_head"%string) 12%N (Some "relay_chain::Hash"%string) []); (Field (Some "relay_dispatch_queue_size"%string) 322%N (Some "RelayDispachQueueSize"%string) []); (Field (Some "ingress_channels"%string) 323%N (Some "Vec<(ParaId, AbridgedHrmpChannel)>"%string) []); (Field (Some "egress_channels"%string) 323%N (Some "Vec<(ParaId, AbridgedHrmpChannel)>"%string) [])]) []).
Definition md_t322 : ty := (Ty ["cumulus_pallet_parachain_system"%string; "relay_state_snapshot"%string; "RelayDispachQueueSize"%string] [] (TComposite [(Field (Some "remaining_count"%string) 4%N (Some "u32"%string) []); (Field (Some "remaining_size"%string) 4%N (Some "u32"%string) [])]) []).
Definition md_t323 : ty := (Ty [] [] (TSequence 324%N) []).
Definition md_t324 : ty := (Ty [] [] (TTuple [61%N; 325%N]) []).
Definition md_t325 : ty := (Ty ["polkadot_primitives"%string; "v4"%string; "AbridgedHrmpChannel"%string] [] (TComposite [(Field (Some "max_capacity"%string) 4%N (Some "u32"%string) []); (Field (Some "max_total_size"%string) 4%N (Some "u32"%string) []); (Field (Some "max_message_size"%string) 4%N (Some "u32"%string) []); (Field (Some "msg_count"%string) 4%N (Some "u32"%string) []); (Field (Some "total_size"%string) 4%N (Some "u32"%string) []); (Field (Some "mqc_head"%string) 326%N (Some "Option<Hash>"%string) [])]) []).
Definition md_t326 : ty := (Ty ["Option"%string] [("T"%string,(Some 12%N))] (TVariant [(Variant "None"%string [] 0%N []); (Variant "Some"%string [(Field None 12%N None [])] 1%N [])]) []).
Definition md_t327 : ty := (Ty ["polkadot_primitives"%string; "v4"%string; "AbridgedHostConfiguration"%string] [] (TComposite [(Field (Some "max_code_size"%string) 4%N (Some "u32"%string) []); (Field (Some "max_head_data_size"%string) 4%N (Some "u32"%string) []); (Field (Some "max_upward_queue_count"%string) 4%N (Some "u32"%string) []); (Field (Some "max_upward_queue_size"%string) 4%N (Some "u32"%string) []); (Field (Some "max_upward_message_size"%string) 4%N (Some "u32"%string) []); (Field (Some "max_upward_message_num_per_candidate"%string) 4%N (Some "u32"%string) []); (Field (Some "hrmp_max_message_num_per_candidate"%string) 4%N (Some "u32"%string) []); (Field (Some "validation_upgrade_cooldown"%string) 4%N (Some "BlockNumber"%string) []); (Field (Some "validation_upgrade_delay"%string) 4%N (Some "BlockNumber"%string) [])]) []).
Definition md_t328 : ty := (Ty ["cumulus_primitives_parachain_inherent"%string; "MessageQueueChain"%string] [] (TComposite [(Field None 12%N (Some "RelayHash"%string) [])]) []).
Definition md_t329 : ty := (Ty ["BTreeMap"%string] [("K"%string,(Some 61%N)); ("V"%string,(Some 328%N))] (TComposite [(Field None 330%N None [])]) []).
Definition md_t330 : ty := (Ty [] [] (TSequence 331%N) []).
Definition md_t331 : ty := (Ty [] [] (TTuple [61%N; 328%N]) []).
Definition md_t332 : ty := (Ty [] [] (TSequence 333%N) []).
Definition md_t333 : ty := (Ty ["polkadot_core_primitives"%string; "OutboundHrmpMessage"%string] [("Id"%string,(Some 61%N))] (TComposite [(Field (Some "recipient"%string) 61%N (Some "Id"%string) []); (Field (Some "data"%string) 13%N (Some "sp_std::vec::Vec<u8>"%string) [])]) []).
Definition md_t334 : ty := (Ty ["cumulus_pallet_parachain_system"%string; "CodeUpgradeAuthorization"%string] [("T"%string,None)] (TComposite [(Field (Some "code_hash"%string) 12%N (Some "T::Hash"%string) []); (Field (Some "check_version"%string) 49%N (Some "bool"%string) [])]) []).
Definition md_t335 : ty := (Ty ["cumulus_pallet_parachain_system"%string; "pallet"%string; "Error"%string] [("T"%string,None)] (TVariant [(Variant "OverlappingUpgrades"%string [] 0%N ["Attempt to upgrade validation function while existing upgrade pending."%string]); (Variant "ProhibitedByPolkadot"%string [] 1%N ["Polkadot currently prohibits this parachain from upgrading its validation function."%string]); (Variant "TooBig"%string [] 2%N ["The supplied validation function has compiled into a blob larger than Polkadot is"%string; "willing to run."%string]); (Variant "ValidationDataNotAvailable"%string [] 3%N ["The inherent which supplies the validation data did not run this block."%string]); (Variant "HostConfigurationNotAvailable"%string [] 4%N ["The inherent which supplies the host configuration did not run this block."%string]); (Variant "NotScheduled"%string [] 5%N ["No validation function upgrade is currently scheduled."%string]); (Variant "NothingAuthorized"%string [] 6%N ["No code upgrade has been authorized."%string]); (Variant "Unauthorized"%string [] 7%N ["The given code upgrade has not been authorized."%string])]) ["
			Custom [dispatch errors](https://docs.substrate.io/main-docs/build/events-errors/)
			of this pallet.
			"%string]).
Definition md_t336 : ty := (Ty ["sp_arithmetic"%string; "fixed_point"%string; "FixedU128"%string] [] (TComposite [(Field None 6%N (Some "u128"%string) [])]) []).
Definition md_t337 : ty := (Ty ["pallet_transaction_payment"%string; "Releases"%string] [] (TVariant [(Variant "V1Ancient"%string [] 0%N []); (Variant "V2"%string [] 1%N [])]) []).
Definition md_t338 : ty := (Ty ["bounded_collections"%string; "weak_bounded_vec"%string; "WeakBoundedVec"%string] [("T"%string,(Some 339%N)); ("S"%string,None)] (TComposite [(Field None 341%N (Some "Vec<T>"%string) [])]) []).
Definition md_t339 : ty := (Ty ["pallet_balances"%string; "types"%string; "BalanceLock"%string] [("Balance"%string,(Some 6%N))] (TComposite [(Field (Some "id"%string) 82%N (Some "LockIdentifier"%string) []); (Field (Some "amount"%string) 6%N (Some "Balance"%string) []); (Field (Some "reasons"%string) 340%N (Some "Reasons"%string) [])]) []).
Definition md_t340 : ty := (Ty ["pallet_balances"%string; "types"%string; "Reasons"%string] [] (TVariant [(Variant "Fee"%string [] 0%N []); (Variant "Misc"%string [] 1%N []); (Variant "All"%string [] 2%N [])]) []).
Definition md_t341 : ty := (Ty [] [] (TSequence 339%N) []).
Definition md_t342 : ty := (Ty ["bounded_collections"%string; "bounded_vec"%string; "BoundedVec"%string] [("T"%string,(Some 343%N)); ("S"%string,None)] (TComposite [(Field None 344%N (Some "Vec<T>"%string) [])]) []).
Definition md_t343 : ty := (Ty ["pallet_balances"%string; "types"%string; "ReserveData"%string] [("ReserveIdentifier"%string,(Some 82%N)); ("Balance"%string,(Some 6%N))] (TComposite [(Field (Some "id"%string) 82%N (Some "ReserveIdentifier"%string) []); (Field (Some "amount"%string) 6%N (Some "Balance"%string) [])]) []).
Definition md_t344 : ty := (Ty [] [] (TSequence 343%N) []).
Definition md_t345 : ty := (Ty ["bounded_collections"%string; "bounded_vec"%string; "BoundedVec"%string] [("T"%string,(Some 346%N)); ("S"%string,None)] (TComposite [(Field None 347%N (Some "Vec<T>"%string) [])]) []).
Definition md_t346 : ty := (Ty ["pallet_balances"%string; "types"%string; "IdAmount"%string] [("Id"%string,(Some 32%N)); ("Balance"%string,(Some 6%N))] (TComposite [(Field (Some "id"%string) 32%N (Some "Id"%string) []); (Field (Some "amount"%string) 6%N (Some "Balance"%string) [])]) []).
Definition md_t347 : ty := (Ty [] [] (TSequence 346%N) []).
Definition md_t348 : ty := (Ty ["pallet_balances"%string; "pallet"%string; "Error"%string] [("T"%string,None); ("I"%string,None)] (TVariant [(Variant "VestingBalance"%string [] 0%N ["Vesting balance too high to send value."%string]); (Variant "LiquidityRestrictions"%string [] 1%N ["Account liquidity restrictions prevent withdrawal."%string]); (Variant "InsufficientBalance"%string [] 2%N ["Balance too low to send value."%string]); (Variant "ExistentialDeposit"%string [] 3%N ["Value too low to create account due to existential deposit."%string]); (Variant "Expendability"%string [] 4%N ["Transfer/payment would kill account."%string]); (Variant "ExistingVestingSchedule"%string [] 5%N ["A vesting schedule already exists for this account."%string]); (Variant "DeadAccount"%string [] 6%N ["Beneficiary account must pre-exist."%string]); (Variant "TooManyReserves"%string [] 7%N ["Number of named reserves exceed `MaxReserves`."%string]); (Variant "TooManyHolds"%string [] 8%N ["Number of holds exceed `MaxHolds`."%string]); (Variant "TooManyFreezes"%string [] 9%N ["Number of freezes exceed `MaxFreezes`."%string])]) ["
			Custom [dispatch errors](https://docs.substrate.io/main-docs/build/events-errors/)
			of this pallet.
			"%string]).
Definition md_t349 : ty := (Ty ["bounded_collections"%string; "bounded_vec"%string; "BoundedVec"%string] [("T"%string,(Some 228%N)); ("S"%string,None)] (TComposite [(Field None 350%N (Some "Vec<T>"%string) [])]) []).
Definition md_t350 : ty := (Ty [] [] (TSequence 228%N) []).
Definition md_t351 : ty := (Ty ["pallet_vesting"%string; "Releases"%string] [] (TVariant [(Variant "V0"%string [] 0%N []); (Variant "V1"%string [] 1%N [])]) []).
Definition md_t352 : ty := (Ty ["pallet_vesting"%string; "pallet"%string; "Error"%string] [("T"%string,None)] (TVariant [(Variant "NotVesting"%string [] 0%N ["The account given is not vesting."%string]); (Variant "AtMaxVestingSchedules"%string [] 1%N ["The account already has `MaxVestingSchedules` count of schedules and thus"%string; "cannot add another one. Consider merging existing schedules in order to add another."%string]); (Variant "AmountLow"%string [] 2%N ["Amount being transferred is too low to create a vesting schedule."%string]); (Variant "ScheduleIndexOutOfBounds"%string [] 3%N ["An index was out of bounds of the vesting schedules."%string]); (Variant "InvalidScheduleParams"%string [] 4%N ["Failed to create a new schedule because some parameter was invalid."%string])]) ["Error for the vesting pallet."%string]).
Definition md_t353 : ty := (Ty ["pallet_dapps_staking"%string; "AccountLedger"%string] [] (TComposite [(Field (Some "locked"%string) 70%N (Some "Balance"%string) []); (Field (Some "unbonding_info"%string) 354%N (Some "UnbondingInfo"%string) []); (Field (Some "reward_destination"%string) 50%N (Some "RewardDestination"%string) [])]) []).
Definition md_t354 : ty := (Ty ["pallet_dapps_staking"%string; "UnbondingInfo"%string] [] (TComposite [(Field (Some "unlocking_chunks"%string) 355%N (Some "Vec<UnlockingChunk>"%string) [])]) []).
Definition md_t355 : ty := (Ty [] [] (TSequence 356%N) []).
Definition md_t356 : ty := (Ty ["pallet_dapps_staking"%string; "UnlockingChunk"%string] [] (TComposite [(Field (Some "amount"%string) 70%N (Some "Balance"%string) []); (Field (Some "unlock_era"%string) 67%N (Some "EraIndex"%string) [])]) []).
Definition md_t357 : ty := (Ty ["pallet_dapps_staking"%string; "RewardInfo"%string] [] (TComposite [(Field (Some "stakers"%string) 70%N (Some "Balance"%string) []); (Field (Some "dapps"%string) 70%N (Some "Balance"%string) [])]) []).
Definition md_t358 : ty := (Ty ["pallet_dapps_staking"%string; "Forcing"%string] [] (TVariant [(Variant "NotForcing"%string [] 0%N []); (Variant "ForceNew"%string [] 1%N [])]) []).
Definition md_t359 : ty := (Ty ["pallet_dapps_staking"%string; "DAppInfo"%string] [("AccountId"%string,(Some 0%N))] (TComposite [(Field (Some "developer"%string) 0%N (Some "AccountId"%string) []); (Field (Some "state"%string) 360%N (Some "DAppState"%string) [])]) []).
Definition md_t360 : ty := (Ty ["pallet_dapps_staking"%string; "DAppState"%string] [] (TVariant [(Variant "Registered"%string [] 0%N []); (Variant "Unregistered"%string [(Field None 4%N (Some "EraIndex"%string) [])] 1%N [])]) []).
Definition md_t361 : ty := (Ty ["pallet_dapps_staking"%string; "EraInfo"%string] [] (TComposite [(Field (Some "rewards"%string) 357%N (Some "RewardInfo"%string) []); (Field (Some "staked"%string) 70%N (Some "Balance"%string) []); (Field (Some "locked"%string) 70%N (Some "Balance"%string) [])]) []).
Definition md_t362 : ty := (Ty [] [] (TTuple [46%N; 4%N]) []).
Definition md_t363 : ty := (Ty [] [] (TTuple [0%N; 46%N]) []).
Definition md_t364 : ty := (Ty ["pallet_dapps_staking"%string; "StakerInfo"%string] [] (TComposite [(Field (Some "stakes"%string) 365%N (Some "Vec<EraStake>"%string) [])]) []).
Definition md_t365 : ty := (Ty [] [] (TSequence 366%N) []).
Definition md_t366 : ty := (Ty ["pallet_dapps_staking"%string; "EraStake"%string] [] (TComposite [(Field (Some "staked"%string) 70%N (Some "Balance"%string) []); (Field (Some "era"%string) 67%N (Some "EraIndex"%string) [])]) []).
Definition md_t367 : ty := (Ty ["pallet_dapps_staking"%string; "Version"%string] [] (TVariant [(Variant "V1_0_0"%string [] 0%N []); (Variant "V2_0_0"%string [] 1%N []); (Variant "V3_0_0"%string [] 2%N []); (Variant "V4_0_0"%string [] 3%N [])]) []).
Definition md_t368 : ty := (Ty ["frame_support"%string; "PalletId"%string] [] (TComposite [(Field None 82%N (Some "[u8; 8]"%string) [])]) []).
Definition md_t369 : ty := (Ty ["pallet_dapps_staking"%string; "pallet"%string; "pallet"%string; "Error"%string] [("T"%string,None)] (TVariant [(Variant "Disabled"%string [] 0%N ["Disabled"%string]); (Variant "NoMaintenanceModeChange"%string [] 1%N ["No change in maintenance mode"%string]); (Variant "UpgradeTooHeavy"%string [] 2%N ["Upgrade is too heavy, reduce the weight parameter."%string]); (Variant "StakingWithNoValue"%string [] 3%N ["Can not stake with zero value."%string]); (Variant "InsufficientValue"%string [] 4%N ["Can not stake with value less than minimum staking value"%string]); (Variant "MaxNumberOfStakersExceeded"%string [] 5%N ["Number of stakers per contract exceeded."%string]); (Variant "NotOperatedContract"%string [] 6%N ["Targets must be operated contracts"%string]); (Variant "NotStakedContract"%string [] 7%N ["Contract isn't staked."%string]); (Variant "NotUnregisteredContract"%string [] 8%N ["Contract isn't unregistered."%string]); (Variant "UnclaimedRewardsRemaining"%string [] 9%N ["Unclaimed rewards should be claimed before withdrawing stake."%string]); (Variant "UnstakingWithNoValue"%string [] 10%N ["Unstaking a contract with zero value"%string]); (Variant "NothingToWithdraw"%string [] 11%N ["There are no previously unbonded funds that can be unstaked and withdrawn."%string]); (Variant "AlreadyRegisteredContract"%string [] 12%N ["The contract is already registered by other account"%string]); (Variant "AlreadyUsedDeveloperAccount"%string [] 13%N ["This account was already used to register contract"%string]); (Variant "NotOwnedContract"%string [] 14%N ["Smart contract not owned by the account id."%string]); (Variant "UnknownEraReward"%string [] 15%N ["Report issue on github if this is ever emitted"%string]); (Variant "UnexpectedStakeInfoEra"%string [] 16%N ["Report issue on github if this is ever emitted"%string]); (Variant "TooManyUnlockingChunks"%string [] 17%N ["Contract has too many unlocking chunks. Withdraw the existing chunks if possible"%string; "or wait for current chunks to complete unlocking process to withdraw them."%string]); (Variant "AlreadyClaimedInThisEra"%string [] 18%N ["Contract already claimed in this era and reward is distributed"%string]); (Variant "EraOutOfBounds"%string [] 19%N ["Era parameter is out of bounds"%string]); (Variant "TooManyEraStakeValues"%string [] 20%N ["Too many active `EraStake` values for (staker, contract) pairing."%string; "Claim existing rewards to fix this problem."%string]); (Variant "NotActiveStaker"%string [] 21%N ["Account is not actively staking"%string]); (Variant "NominationTransferToSameContract"%string [] 22%N ["Transfering nomination to the same contract"%string])]) ["
			Custom [dispatch errors](https://docs.substrate.io/main-docs/build/events-errors/)
			of this pallet.
			"%string]).
Definition md_t370 : ty := (Ty ["pallet_block_reward"%string; "pallet"%string; "Error"%string] [("T"%string,None)] (TVariant [(Variant "InvalidDistributionConfiguration"%string [] 0%N ["Sum of all rations must be one whole (100%)"%string])]) ["
			Custom [dispatch errors](https://docs.substrate.io/main-docs/build/events-errors/)
			of this pallet.
			"%string]).
Definition md_t371 : ty := (Ty ["pallet_assets"%string; "types"%string; "AssetDetails"%string] [("Balance"%string,(Some 6%N)); ("AccountId"%string,(Some 0%N)); ("DepositBalance"%string,(Some 6%N))] (TComposite [(Field (Some "owner"%string) 0%N (Some "AccountId"%string) []); (Field (Some "issuer"%string) 0%N (Some "AccountId"%string) []); (Field (Some "admin"%string) 0%N (Some "AccountId"%string) []); (Field (Some "freezer"%string) 0%N (Some "AccountId"%string) []); (Field (Some "supply"%string) 6%N (Some "Balance"%string) []); (Field (Some "deposit"%string) 6%N (Some "DepositBalance"%string) []); (Field (Some "min_balance"%string) 6%N (Some "Balance"%string) []); (Field (Some "is_sufficient"%string) 49%N (Some "bool"%string) []); (Field (Some "accounts"%string) 4%N (Some "u32"%string) []); (Field (Some "sufficients"%string) 4%N (Some "u32"%string) []); (Field (Some "approvals"%string) 4%N (Some "u32"%string) []); (Field (Some "status"%string) 372%N (Some "AssetStatus"%string) [])]) []).
Definition md_t372 : ty := (Ty ["pallet_assets"%string; "types"%string; "AssetStatus"%string] [] (TVariant [(Variant "Live"%string [] 0%N []); (Variant "Frozen"%string [] 1%N []); (Variant "Destroying"%string [] 2%N [])]) []).
Definition md_t373 : ty := (Ty [] [] (TTuple [6%N; 0%N]) []).
Definition md_t374 : ty := (Ty ["pallet_assets"%string; "types"%string; "AssetAccount"%string] [("Balance"%string,(Some 6%N)); ("DepositBalance"%string,(Some 6%N)); ("Extra"%string,(Some 32%N)); ("AccountId"%string,(Some 0%N))] (TComposite [(Field (Some "balance"%string) 6%N (Some "Balance"%string) []); (Field (Some "status"%string) 375%N (Some "AccountStatus"%string) []); (Field (Some "reason"%string) 376%N (Some "ExistenceReason<DepositBalance, AccountId>"%string) []); (Field (Some "extra"%string) 32%N (Some "Extra"%string) [])]) []).
Definition md_t375 : ty := (Ty ["pallet_assets"%string; "types"%string; "AccountStatus"%string] [] (TVariant [(Variant "Liquid"%string [] 0%N []); (Variant "Frozen"%string [] 1%N []); (Variant "Blocked"%string [] 2%N [])]) []).
Definition md_t376 : ty := (Ty ["pallet_assets"%string; "types"%string; "ExistenceReason"%string] [("Balance"%string,(Some 6%N)); ("AccountId"%string,(Some 0%N))] (TVariant [(Variant "Consumer"%string [] 0%N []); (Variant "Sufficient"%string [] 1%N []); (Variant "DepositHeld"%string [(Field None 6%N (Some "Balance"%string) [])] 2%N []); (Variant "DepositRefunded"%string [] 3%N []); (Variant "DepositFrom"%string [(Field None 0%N (Some "AccountId"%string) []); (Field None 6%N (Some "Balance"%string) [])] 4%N [])]) []).
Definition md_t377 : ty := (Ty [] [] (TTuple [6%N; 0%N; 0%N]) []).
Definition md_t378 : ty := (Ty ["pallet_assets"%string; "types"%string; "Approval"%string] [("Balance"%string,(Some 6%N)); ("DepositBalance"%string,(Some 6%N))] (TComposite [(Field (Some "amount"%string) 6%N (Some "Balance"%string) []); (Field (Some "deposit"%string) 6%N (Some "DepositBalance"%string) [])]) []).
Definition md_t379 : ty := (Ty ["pallet_assets"%string; "types"%string; "AssetMetadata"%string] [("DepositBalance"%string,(Some 6%N)); ("BoundedString"%string,(Some 380%N))] (TComposite [(Field (Some "deposit"%string) 6%N (Some "DepositBalance"%string) []); (Field (Some "name"%string) 380%N (Some "BoundedString"%string) []); (Field (Some "symbol"%string) 380%N (Some "BoundedString"%string) []); (Field (Some "decimals"%string) 2%N (Some "u8"%string) []); (Field (Some "is_frozen"%string) 49%N (Some "bool"%string) [])]) []).
Definition md_t380 : ty := (Ty ["bounded_collections"%string; "bounded_vec"%string; "BoundedVec"%string] [("T"%string,(Some 2%N)); ("S"%string,None)] (TComposite [(Field None 13%N (Some "Vec<T>"%string) [])]) []).
Definition md_t381 : ty := (Ty ["pallet_assets"%string; "pallet"%string; "Error"%string] [("T"%string,None); ("I"%string,None)] (TVariant [(Variant "BalanceLow"%string [] 0%N ["Account balance must be greater than or equal to the transfer amount."%string]); (Variant "NoAccount"%string [] 1%N ["The account to alter does not exist."%string]); (Variant "NoPermission"%string [] 2%N ["The signing account has no permission to do the operation."%string]); (Variant "Unknown"%string [] 3%N ["The given asset ID is unknown."%string]); (Variant "Frozen"%string [] 4%N ["The origin account is frozen."%string]); (Variant "InUse"%string [] 5%N ["The asset ID is already taken."%string]); (Variant "BadWitness"%string [] 6%N ["Invalid witness data given."%string]); (Variant "MinBalanceZero"%string [] 7%N ["Minimum balance should be non-zero."%string]); (Variant "UnavailableConsumer"%string [] 8%N ["Unable to increment the consumer reference counters on the account. Either no provider"%string; "reference exists to allow a non-zero balance of a non-self-sufficient asset, or one"%string; "fewer then the maximum number of consumers has been reached."%string]); (Variant "BadMetadata"%string [] 9%N ["Invalid metadata given."%string]); (Variant "Unapproved"%string [] 10%N ["No approval exists that would allow the transfer."%string]); (Variant "WouldDie"%string [] 11%N ["The source account would not survive the transfer and it needs to stay alive."%string]); (Variant "AlreadyExists"%string [] 12%N ["The asset-account already exists."%string]); (Variant "NoDeposit"%string [] 13%N ["The asset-account doesn't have an associated deposit."%string]); (Variant "WouldBurn"%string [] 14%N ["The operation would result in funds being burned."%string]); (Variant "LiveAsset"%string [] 15%N ["The asset is a live asset and is actively being used. Usually emit for operations such"%string; "as `start_destroy` which require the asset to be in a destroying state."%string]); (Variant "AssetNotLive"%string [] 16%N ["The asset is not live, and likely being destroyed."%string]); (Variant "IncorrectStatus"%string [] 17%N ["The asset status is not the expected status."%string]); (Variant "NotFrozen"%string [] 18%N ["The asset should be frozen before the given operation."%string]); (Variant "CallbackFailed"%string [] 19%N ["Callback action resulted in error"%string])]) ["
			Custom [dispatch errors](https://docs.substrate.io/main-docs/build/events-errors/)
			of this pallet.
			"%string]).
Definition md_t382 : ty := (Ty [] [] (TSequence 383%N) []).
Definition md_t383 : ty := (Ty ["pallet_collator_selection"%string; "pallet"%string; "CandidateInfo"%string] [("AccountId"%string,(Some 0%N)); ("Balance"%string,(Some 6%N))] (TComposite [(Field (Some "who"%string) 0%N (Some "AccountId"%string) []); (Field (Some "deposit"%string) 6%N (Some "Balance"%string) [])]) []).
Definition md_t384 : ty := (Ty ["pallet_collator_selection"%string; "pallet"%string; "Error"%string] [("T"%string,None)] (TVariant [(Variant "TooManyCandidates"%string [] 0%N ["Too many candidates"%string]); (Variant "TooFewCandidates"%string [] 1%N ["Too few candidates"%string]); (Variant "Unknown"%string [] 2%N ["Unknown error"%string]); (Variant "Permission"%string [] 3%N ["Permission issue"%string]); (Variant "AlreadyCandidate"%string [] 4%N ["User is already a candidate"%string]); (Variant "NotCandidate"%string [] 5%N ["User is not a candidate"%string]); (Variant "AlreadyInvulnerable"%string [] 6%N ["User is already an Invulnerable"%string]); (Variant "NoAssociatedValidatorId"%string [] 7%N ["Account has no associated validator ID"%string]); (Variant "ValidatorNotRegistered"%string [] 8%N ["Validator ID is not yet registered"%string])]) ["
			Custom [dispatch errors](https://docs.substrate.io/main-docs/build/events-errors/)
			of this pallet.
			"%string]).
Definition md_t385 : ty := (Ty [] [] (TSequence 386%N) []).
Definition md_t386 : ty := (Ty [] [] (TTuple [0%N; 235%N]) []).
Definition md_t387 : ty := (Ty [] [] (TSequence 4%N) []).
Definition md_t388 : ty := (Ty [] [] (TTuple [389%N; 13%N]) []).
Definition md_t389 : ty := (Ty ["sp_core"%string; "crypto"%string; "KeyTypeId"%string] [] (TComposite [(Field None 17%N (Some "[u8; 4]"%string) [])]) []).
Definition md_t390 : ty := (Ty ["pallet_session"%string; "pallet"%string; "Error"%string] [("T"%string,None)] (TVariant [(Variant "InvalidProof"%string [] 0%N ["Invalid ownership proof."%string]); (Variant "NoAssociatedValidatorId"%string [] 1%N ["No associated validator ID for account."%string]); (Variant "DuplicatedKey"%string [] 2%N ["Registered duplicate key."%string]); (Variant "NoKeys"%string [] 3%N ["No keys are associated with this account."%string]); (Variant "NoAccount"%string [] 4%N ["Key setting account is not live, so it's impossible to associate keys."%string])]) ["Error for the session pallet."%string]).
Definition md_t391 : ty := (Ty ["bounded_collections"%string; "bounded_vec"%string; "BoundedVec"%string] [("T"%string,(Some 236%N)); ("S"%string,None)] (TComposite [(Field None 392%N (Some "Vec<T>"%string) [])]) []).
Definition md_t392 : ty := (Ty [] [] (TSequence 236%N) []).
Definition md_t393 : ty := (Ty ["sp_consensus_slots"%string; "Slot"%string] [] (TComposite [(Field None 11%N (Some "u64"%string) [])]) []).
Definition md_t394 : ty := (Ty [] [] (TSequence 395%N) []).
Definition md_t395 : ty := (Ty ["cumulus_pallet_xcmp_queue"%string; "InboundChannelDetails"%string] [] (TComposite [(Field (Some "sender"%string) 61%N (Some "ParaId"%string) []); (Field (Some "state"%string) 396%N (Some "InboundState"%string) []); (Field (Some "message_metadata"%string) 397%N (Some "Vec<(RelayBlockNumber, XcmpMessageFormat)>"%string) [])]) []).
Definition md_t396 : ty := (Ty ["cumulus_pallet_xcmp_queue"%string; "InboundState"%string] [] (TVariant [(Variant "Ok"%string [] 0%N []); (Variant "Suspended"%string [] 1%N [])]) []).
Definition md_t397 : ty := (Ty [] [] (TSequence 398%N) []).
Definition md_t398 : ty := (Ty [] [] (TTuple [4%N; 399%N]) []).
Definition md_t399 : ty := (Ty ["polkadot_parachain"%string; "primitives"%string; "XcmpMessageFormat"%string] [] (TVariant [(Variant "ConcatenatedVersionedXcm"%string [] 0%N []); (Variant "ConcatenatedEncodedBlob"%string [] 1%N []); (Variant "Signals"%string [] 2%N [])]) []).
Definition md_t400 : ty := (Ty [] [] (TTuple [61%N; 4%N]) []).
Definition md_t401 : ty := (Ty [] [] (TSequence 402%N) []).
Definition md_t402 : ty := (Ty ["cumulus_pallet_xcmp_queue"%string; "OutboundChannelDetails"%string] [] (TComposite [(Field (Some "recipient"%string) 61%N (Some "ParaId"%string) []); (Field (Some "state"%string) 403%N (Some "OutboundState"%string) []); (Field (Some "signals_exist"%string) 49%N (Some "bool"%string) []); (Field (Some "first_index"%string) 38%N (Some "u16"%string) []); (Field (Some "last_index"%string) 38%N (Some "u16"%string) [])]) []).
Definition md_t403 : ty := (Ty ["cumulus_pallet_xcmp_queue"%string; "OutboundState"%string] [] (TVariant [(Variant "Ok"%string [] 0%N []); (Variant "Suspended"%string [] 1%N [])]) []).
Definition md_t404 : ty := (Ty [] [] (TTuple [61%N; 38%N]) []).
Definition md_t405 : ty := (Ty ["cumulus_pallet_xcmp_queue"%string; "QueueConfigData"%string] [] (TComposite [(Field (Some "suspend_threshold"%string) 4%N (Some "u32"%string) []); (Field (Some "drop_threshold"%string) 4%N (Some "u32"%string) []); (Field (Some "resume_threshold"%string) 4%N (Some "u32"%string) []); (Field (Some "threshold_weight"%string) 9%N (Some "Weight"%string) []); (Field (Some "weight_restrict_decay"%string) 9%N (Some "Weight"%string) []); (Field (Some "xcmp_max_individual_weight"%string) 9%N (Some "Weight"%string) [])]) []).
Definition md_t406 : ty := (Ty [] [] (TTuple [61%N; 4%N; 13%N]) []).
Definition md_t407 : ty := (Ty ["cumulus_pallet_xcmp_queue"%string; "pallet"%string; "Error"%string] [("T"%string,None)] (TVariant [(Variant "FailedToSend"%string [] 0%N ["Failed to send XCM message."%string]); (Variant "BadXcmOrigin"%string [] 1%N ["Bad XCM origin."%string]); (Variant "BadXcm"%string [] 2%N ["Bad XCM data."%string]); (Variant "BadOverweightIndex"%string [] 3%N ["Bad overweight index."%string]); (Variant "WeightOverLimit"%string [] 4%N ["Provided weight is possibly not enough to execute the message."%string])]) ["
			Custom [dispatch errors](https://docs.substrate.io/main-docs/build/events-errors/)
			of this pallet.
			"%string]).
Definition md_t408 : ty := (Ty ["pallet_xcm"%string; "pallet"%string; "QueryStatus"%string] [("BlockNumber"%string,(Some 4%N))] (TVariant [(Variant "Pending"%string [(Field (Some "responder"%string) 115%N (Some "VersionedMultiLocation"%string) []); (Field (Some "maybe_match_querier"%string) 409%N (Some "Option<VersionedMultiLocation>"%string) []); (Field (Some "maybe_notify"%string) 410%N (Some "Option<(u8, u8)>"%string) []); (Field (Some "timeout"%string) 4%N (Some "BlockNumber"%string) [])] 0%N []); (Variant "VersionNotifier"%string [(Field (Some "origin"%string) 115%N (Some "VersionedMultiLocation"%string) []); (Field (Some "is_active"%string) 49%N (Some "bool"%string) [])] 1%N []); (Variant "Ready"%string [(Field (Some "response"%string) 412%N (Some "VersionedResponse"%string) []); (Field (Some "at"%string) 4%N (Some "BlockNumber"%string) [])] 2%N [])]) []).
Definition md_t409 : ty := (Ty ["Option"%string] [("T"%string,(Some 115%N))] (TVariant [(Variant "None"%string [] 0%N []); (Variant "Some"%string [(Field None 115%N None [])] 1%N [])]) []).
Definition md_t410 : ty := (Ty ["Option"%string] [("T"%string,(Some 411%N))] (TVariant [(Variant "None"%string [] 0%N []); (Variant "Some"%string [(Field None 411%N None [])] 1%N [])]) []).
Definition md_t411 : ty := (Ty [] [] (TTuple [2%N; 2%N]) []).
Definition md_t412 : ty := (Ty ["xcm"%string; "VersionedResponse"%string] [] (TVariant [(Variant "V2"%string [(Field None 244%N (Some "v2::Response"%string) [])] 2%N []); (Variant "V3"%string [(Field None 84%N (Some "v3::Response"%string) [])] 3%N [])]) []).
Definition md_t413 : ty := (Ty [] [] (TTuple [4%N; 115%N]) []).
Definition md_t414 : ty := (Ty [] [] (TTuple [11%N; 9%N; 4%N]) []).
Definition md_t415 : ty := (Ty ["bounded_collections"%string; "bounded_vec"%string; "BoundedVec"%string] [("T"%string,(Some 416%N)); ("S"%string,None)] (TComposite [(Field None 417%N (Some "Vec<T>"%string) [])]) []).
Definition md_t416 : ty := (Ty [] [] (TTuple [115%N; 4%N]) []).
Definition md_t417 : ty := (Ty [] [] (TSequence 416%N) []).
Definition md_t418 : ty := (Ty ["pallet_xcm"%string; "pallet"%string; "VersionMigrationStage"%string] [] (TVariant [(Variant "MigrateSupportedVersion"%string [] 0%N []); (Variant "MigrateVersionNotifiers"%string [] 1%N []); (Variant "NotifyCurrentTargets"%string [(Field None 419%N (Some "Option<Vec<u8>>"%string) [])] 2%N []); (Variant "MigrateAndNotifyOldTargets"%string [] 3%N [])]) []).
Definition md_t419 : ty := (Ty ["Option"%string] [("T"%string,(Some 13%N))] (TVariant [(Variant "None"%string [] 0%N []); (Variant "Some"%string [(Field None 13%N None [])] 1%N [])]) []).
Definition md_t420 : ty := (Ty [] [] (TTuple [4%N; 0%N; 421%N]) []).
Definition md_t421 : ty := (Ty ["xcm"%string; "VersionedAssetId"%string] [] (TVariant [(Variant "V3"%string [(Field None 79%N (Some "v3::AssetId"%string) [])] 3%N [])]) []).
Definition md_t422 : ty := (Ty ["pallet_xcm"%string; "pallet"%string; "RemoteLockedFungibleRecord"%string] [] (TComposite [(Field (Some "amount"%string) 6%N (Some "u128"%string) []); (Field (Some "owner"%string) 115%N (Some "VersionedMultiLocation"%string) []); (Field (Some "locker"%string) 115%N (Some "VersionedMultiLocation"%string) []); (Field (Some "users"%string) 4%N (Some "u32"%string) [])]) []).
Definition md_t423 : ty := (Ty ["bounded_collections"%string; "bounded_vec"%string; "BoundedVec"%string] [("T"%string,(Some 424%N)); ("S"%string,None)] (TComposite [(Field None 425%N (Some "Vec<T>"%string) [])]) []).
Definition md_t424 : ty := (Ty [] [] (TTuple [6%N; 115%N]) []).
Definition md_t425 : ty := (Ty [] [] (TSequence 424%N) []).
Definition md_t426 : ty := (Ty ["pallet_xcm"%string; "pallet"%string; "Error"%string] [("T"%string,None)] (TVariant [(Variant "Unreachable"%string [] 0%N ["The desired destination was unreachable, generally because there is a no way of routing"%string; "to it."%string]); (Variant "SendFailure"%string [] 1%N ["There was some other issue (i.e. not to do with routing) in sending the message. Perhaps"%string; "a lack of space for buffering the message."%string]); (Variant "Filtered"%string [] 2%N ["The message execution fails the filter."%string]); (Variant "UnweighableMessage"%string [] 3%N ["The message's weight could not be determined."%string]); (Variant "DestinationNotInvertible"%string [] 4%N ["The destination `MultiLocation` provided cannot be inverted."%string]); (Variant "Empty"%string [] 5%N ["The assets to be sent are empty."%string]); (Variant "CannotReanchor"%string [] 6%N ["Could not re-anchor the assets to declare the fees for the destination chain."%string]); (Variant "TooManyAssets"%string [] 7%N ["Too many assets have been attempted for transfer."%string]); (Variant "InvalidOrigin"%string [] 8%N ["Origin is invalid for sending."%string]); (Variant "BadVersion"%string [] 9%N ["The version of the `Versioned` value used is not able to be interpreted."%string]); (Variant "BadLocation"%string [] 10%N ["The given location could not be used (e.g. because it cannot be expressed in the"%string; "desired version of XCM)."%string]); (Variant "NoSubscription"%string [] 11%N ["The referenced subscription could not be found."%string]); (Variant "AlreadySubscribed"%string [] 12%N ["The location is invalid since it already has a subscription from us."%string]); (Variant "InvalidAsset"%string [] 13%N ["Invalid asset for the operation."%string]); (Variant "LowBalance"%string [] 14%N ["The owner does not own (all) of the asset that they wish to do the operation on."%string]); (Variant "TooManyLocks"%string [] 15%N ["The asset owner has too many locks on the asset."%string]); (Variant "AccountNotSovereign"%string [] 16%N ["The given account is not an identifiable sovereign account for any location."%string]); (Variant "FeesNotMet"%string [] 17%N ["The operation required fees to be paid which the initiator could not meet."%string]); (Variant "LockNotFound"%string [] 18%N ["A remote lock with the corresponding data could not be found."%string]); (Variant "InUse"%string [] 19%N ["The unlock operation cannot succeed because there are still users of the lock."%string])]) ["
			Custom [dispatch errors](https://docs.substrate.io/main-docs/build/events-errors/)
			of this pallet.
			"%string]).
Definition md_t427 : ty := (Ty ["cumulus_pallet_xcm"%string; "pallet"%string; "Error"%string] [("T"%string,None)] (TVariant []) ["
			Custom [dispatch errors](https://docs.substrate.io/main-docs/build/events-errors/)
			of this pallet.
			"%string]).
Definition md_t428 : ty := (Ty ["cumulus_pallet_dmp_queue"%string; "ConfigData"%string] [] (TComposite [(Field (Some "max_individual"%string) 9%N (Some "Weight"%string) [])]) []).
Definition md_t429 : ty := (Ty ["cumulus_pallet_dmp_queue"%string; "PageIndexData"%string] [] (TComposite [(Field (Some "begin_used"%string) 4%N (Some "PageCounter"%string) []); (Field (Some "end_used"%string) 4%N (Some "PageCounter"%string) []); (Field (Some "overweight_count"%string) 11%N (Some "OverweightIndex"%string) [])]) []).
Definition md_t430 : ty := (Ty [] [] (TSequence 431%N) []).
Definition md_t431 : ty := (Ty [] [] (TTuple [4%N; 13%N]) []).
Definition md_t432 : ty := (Ty ["cumulus_pallet_dmp_queue"%string; "pallet"%string; "Error"%string] [("T"%string,None)] (TVariant [(Variant "Unknown"%string [] 0%N ["The message index given is unknown."%string]); (Variant "OverLimit"%string [] 1%N ["The amount of weight given is possibly not enough for executing the message."%string])]) ["
			Custom [dispatch errors](https://docs.substrate.io/main-docs/build/events-errors/)
			of this pallet.
			"%string]).
Definition md_t433 : ty := (Ty ["pallet_xc_asset_config"%string; "pallet"%string; "Error"%string] [("T"%string,None)] (TVariant [(Variant "AssetAlreadyRegistered"%string [] 0%N ["Asset is already registered."%string]); (Variant "AssetDoesNotExist"%string [] 1%N ["Asset does not exist (hasn't been registered)."%string]); (Variant "MultiLocationNotSupported"%string [] 2%N ["Failed to convert to latest versioned MultiLocation"%string])]) ["
			Custom [dispatch errors](https://docs.substrate.io/main-docs/build/events-errors/)
			of this pallet.
			"%string]).
Definition md_t434 : ty := (Ty ["orml_xtokens"%string; "module"%string; "Error"%string] [("T"%string,None)] (TVariant [(Variant "AssetHasNoReserve"%string [] 0%N ["Asset has no reserve location."%string]); (Variant "NotCrossChainTransfer"%string [] 1%N ["Not cross-chain transfer."%string]); (Variant "InvalidDest"%string [] 2%N ["Invalid transfer destination."%string]); (Variant "NotCrossChainTransferableCurrency"%string [] 3%N ["Currency is not cross-chain transferable."%string]); (Variant "UnweighableMessage"%string [] 4%N ["The message's weight could not be determined."%string]); (Variant "XcmExecutionFailed"%string [] 5%N ["XCM execution failed."%string]); (Variant "CannotReanchor"%string [] 6%N ["Could not re-anchor the assets to declare the fees for the"%string; "destination chain."%string]); (Variant "InvalidAncestry"%string [] 7%N ["Could not get ancestry of asset reserve location."%string]); (Variant "InvalidAsset"%string [] 8%N ["The MultiAsset is invalid."%string]); (Variant "DestinationNotInvertible"%string [] 9%N ["The destination `MultiLocation` provided cannot be inverted."%string]); (Variant "BadVersion"%string [] 10%N ["The version of the `Versioned` value used is not able to be"%string; "interpreted."%string]); (Variant "DistinctReserveForAssetAndFee"%string [] 11%N ["We tried sending distinct asset and fee but they have different"%string; "reserve chains."%string]); (Variant "ZeroFee"%string [] 12%N ["The fee is zero."%string]); (Variant "ZeroAmount"%string [] 13%N ["The transfering asset amount is zero."%string]); (Variant "TooManyAssetsBeingSent"%string [] 14%N ["The number of assets to be sent is over the maximum."%string]); (Variant "AssetIndexNonExistent"%string [] 15%N ["The specified index does not exist in a MultiAssets struct."%string]); (Variant "FeeNotEnough"%string [] 16%N ["Fee is not enough."%string]); (Variant "NotSupportedMultiLocation"%string [] 17%N ["Not supported MultiLocation"%string]); (Variant "MinXcmFeeNotDefined"%string [] 18%N ["MinXcmFee not registered for certain reserve location"%string])]) ["
			Custom [dispatch errors](https://docs.substrate.io/main-docs/build/events-errors/)
			of this pallet.
			"%string]).
Definition md_t435 : ty := (Ty ["pallet_evm"%string; "CodeMetadata"%string] [] (TComposite [(Field (Some "size"%string) 11%N (Some "u64"%string) []); (Field (Some "hash"%string) 12%N (Some "H256"%string) [])]) []).
Definition md_t436 : ty := (Ty [] [] (TTuple [47%N; 12%N]) []).
Definition md_t437 : ty := (Ty ["pallet_evm"%string; "pallet"%string; "Error"%string] [("T"%string,None)] (TVariant [(Variant "BalanceLow"%string [] 0%N ["Not enough balance to perform action"%string]); (Variant "FeeOverflow"%string [] 1%N ["Calculating total fee overflowed"%string]); (Variant "PaymentOverflow"%string [] 2%N ["Calculating total payment overflowed"%string]); (Variant "WithdrawFailed"%string [] 3%N ["Withdraw fee failed"%string]); (Variant "GasPriceTooLow"%string [] 4%N ["Gas price is too low."%string]); (Variant "InvalidNonce"%string [] 5%N ["Nonce is invalid"%string]); (Variant "GasLimitTooLow"%string [] 6%N ["Gas limit is too low."%string]); (Variant "GasLimitTooHigh"%string [] 7%N ["Gas limit is too high."%string]); (Variant "Undefined"%string [] 8%N ["Undefined error."%string]); (Variant "Reentrancy"%string [] 9%N ["EVM reentrancy"%string]); (Variant "TransactionMustComeFromEOA"%string [] 10%N ["EIP-3607,"%string])]) ["
			Custom [dispatch errors](https://docs.substrate.io/main-docs/build/events-errors/)
			of this pallet.
			"%string]).
Definition md_t438 : ty := (Ty [] [] (TSequence 439%N) []).
Definition md_t439 : ty := (Ty [] [] (TTuple [273%N; 440%N; 445%N]) []).
Definition md_t440 : ty := (Ty ["fp_rpc"%string; "TransactionStatus"%string] [] (TComposite [(Field (Some "transaction_hash"%string) 12%N (Some "H256"%string) []); (Field (Some "transaction_index"%string) 4%N (Some "u32"%string) []); (Field (Some "from"%string) 47%N (Some "H160"%string) []); (Field (Some "to"%string) 441%N (Some "Option<H160>"%string) []); (Field (Some "contract_address"%string) 441%N (Some "Option<H160>"%string) []); (Field (Some "logs"%string) 442%N (Some "Vec<Log>"%string) []); (Field (Some "logs_bloom"%string) 443%N (Some "Bloom"%string) [])]) []).
Definition md_t441 : ty := (Ty ["Option"%string] [("T"%string,(Some 47%N))] (TVariant [(Variant "None"%string [] 0%N []); (Variant "Some"%string [(Field None 47%N None [])] 1%N [])]) []).
Definition md_t442 : ty := (Ty [] [] (TSequence 121%N) []).
Definition md_t443 : ty := (Ty ["ethbloom"%string; "Bloom"%string] [] (TComposite [(Field None 444%N (Some "[u8; BLOOM_SIZE]"%string) [])]) []).
Definition md_t444 : ty := (Ty [] [] (TArray 256%N 2%N) []).
Definition md_t445 : ty := (Ty ["ethereum"%string; "receipt"%string; "ReceiptV3"%string] [] (TVariant [(Variant "Legacy"%string [(Field None 446%N (Some "EIP658ReceiptData"%string) [])] 0%N []); (Variant "EIP2930"%string [(Field None 446%N (Some "EIP2930ReceiptData"%string) [])] 1%N []); (Variant "EIP1559"%string [(Field None 446%N (Some "EIP1559ReceiptData"%string) [])] 2%N [])]) []).
Definition md_t446 : ty := (Ty ["ethereum"%string; "receipt"%string; "EIP658ReceiptData"%string] [] (TComposite [(Field (Some "status_code"%string) 2%N (Some "u8"%string) []); (Field (Some "used_gas"%string) 134%N (Some "U256"%string) []); (Field (Some "logs_bloom"%string) 443%N (Some "Bloom"%string) []); (Field (Some "logs"%string) 442%N (Some "Vec<Log>"%string) [])]) []).
Definition md_t447 : ty := (Ty ["ethereum"%string; "block"%string; "Block"%string] [("T"%string,(Some 273%N))] (TComposite [(Field (Some "header"%string) 448%N (Some "Header"%string) []); (Field (Some "transactions"%string) 450%N (Some "Vec<T>"%string) []); (Field (Some "ommers"%string) 451%N (Some "Vec<Header>"%string) [])]) []).
Definition md_t448 : ty := (Ty ["ethereum"%string; "header"%string; "Header"%string] [] (TComposite [(Field (Some "parent_hash"%string) 12%N (Some "H256"%string) []); (Field (Some "ommers_hash"%string) 12%N (Some "H256"%string) []); (Field (Some "beneficiary"%string) 47%N (Some "H160"%string) []); (Field (Some "state_root"%string) 12%N (Some "H256"%string) []); (Field (Some "transactions_root"%string) 12%N (Some "H256"%string) []); (Field (Some "receipts_root"%string) 12%N (Some "H256"%string) []); (Field (Some "logs_bloom"%string) 443%N (Some "Bloom"%string) []); (Field (Some "difficulty"%string) 134%N (Some "U256"%string) []); (Field (Some "number"%string) 134%N (Some "U256"%string) []); (Field (Some "gas_limit"%string) 134%N (Some "U256"%string) []); (Field (Some "gas_used"%string) 134%N (Some "U256"%string) []); (Field (Some "timestamp"%string) 11%N (Some "u64"%string) []); (Field (Some "extra_data"%string) 13%N (Some "Bytes"%string) []); (Field (Some "mix_hash"%string) 12%N (Some "H256"%string) []); (Field (Some "nonce"%string) 449%N (Some "H64"%string) [])]) []).
Definition md_t449 : ty := (Ty ["ethereum_types"%string; "hash"%string; "H64"%string] [] (TComposite [(Field None 82%N (Some "[u8; 8]"%string) [])]) []).
Definition md_t450 : ty := (Ty [] [] (TSequence 273%N) []).
Definition md_t451 : ty := (Ty [] [] (TSequence 448%N) []).
Definition md_t452 : ty := (Ty [] [] (TSequence 445%N) []).
Definition md_t453 : ty := (Ty [] [] (TSequence 440%N) []).
Definition md_t454 : ty := (Ty ["pallet_ethereum"%string; "pallet"%string; "Error"%string] [("T"%string,None)] (TVariant [(Variant "InvalidSignature"%string [] 0%N ["Signature is invalid."%string]); (Variant "PreLogExists"%string [] 1%N ["Pre-log is present, therefore transact is not allowed."%string])]) ["
			Custom [dispatch errors](https://docs.substrate.io/main-docs/build/events-errors/)
			of this pallet.
			"%string]).
Definition md_t455 : ty := (Ty ["pallet_custom_signatures"%string; "pallet"%string; "Error"%string] [("T"%string,None)] (TVariant [(Variant "DecodeFailure"%string [] 0%N ["Signature decode fails."%string]); (Variant "InvalidSignature"%string [] 1%N ["Signature and account mismatched."%string]); (Variant "BadNonce"%string [] 2%N ["Bad nonce parameter."%string])]) ["
			Custom [dispatch errors](https://docs.substrate.io/main-docs/build/events-errors/)
			of this pallet.
			"%string]).
Definition md_t456 : ty := (Ty ["bounded_collections"%string; "bounded_vec"%string; "BoundedVec"%string] [("T"%string,(Some 2%N)); ("S"%string,None)] (TComposite [(Field None 13%N (Some "Vec<T>"%string) [])]) []).
Definition md_t457 : ty := (Ty ["pallet_contracts"%string; "wasm"%string; "PrefabWasmModule"%string] [("T"%string,None)] (TComposite [(Field (Some "instruction_weights_version"%string) 67%N (Some "u32"%string) []); (Field (Some "initial"%string) 67%N (Some "u32"%string) []); (Field (Some "maximum"%string) 67%N (Some "u32"%string) []); (Field (Some "code"%string) 458%N (Some "RelaxedCodeVec<T>"%string) []); (Field (Some "determinism"%string) 286%N (Some "Determinism"%string) [])]) []).
Definition md_t458 : ty := (Ty ["bounded_collections"%string; "weak_bounded_vec"%string; "WeakBoundedVec"%string] [("T"%string,(Some 2%N)); ("S"%string,None)] (TComposite [(Field None 13%N (Some "Vec<T>"%string) [])]) []).
Definition md_t459 : ty := (Ty ["pallet_contracts"%string; "wasm"%string; "OwnerInfo"%string] [("T"%string,None)] (TComposite [(Field (Some "owner"%string) 0%N (Some "AccountIdOf<T>"%string) []); (Field (Some "deposit"%string) 70%N (Some "BalanceOf<T>"%string) []); (Field (Some "refcount"%string) 10%N (Some "u64"%string) [])]) []).
Definition md_t460 : ty := (Ty ["pallet_contracts"%string; "storage"%string; "ContractInfo"%string] [("T"%string,None)] (TComposite [(Field (Some "trie_id"%string) 461%N (Some "TrieId"%string) []); (Field (Some "deposit_account"%string) 462%N (Some "DepositAccount<T>"%string) []); (Field (Some "code_hash"%string) 12%N (Some "CodeHash<T>"%string) []); (Field (Some "storage_bytes"%string) 4%N (Some "u32"%string) []); (Field (Some "storage_items"%string) 4%N (Some "u32"%string) []); (Field (Some "storage_byte_deposit"%string) 6%N (Some "BalanceOf<T>"%string) []); (Field (Some "storage_item_deposit"%string) 6%N (Some "BalanceOf<T>"%string) []); (Field (Some "storage_base_deposit"%string) 6%N (Some "BalanceOf<T>"%string) [])]) []).
Definition md_t461 : ty := (Ty ["bounded_collections"%string; "bounded_vec"%string; "BoundedVec"%string] [("T"%string,(Some 2%N)); ("S"%string,None)] (TComposite [(Field None 13%N (Some "Vec<T>"%string) [])]) []).
Definition md_t462 : ty := (Ty ["pallet_contracts"%string; "storage"%string; "DepositAccount"%string] [("T"%string,None)] (TComposite [(Field None 0%N (Some "AccountIdOf<T>"%string) [])]) []).
Definition md_t463 : ty := (Ty ["pallet_contracts"%string; "storage"%string; "DeletionQueueManager"%string] [("T"%string,None)] (TComposite [(Field (Some "insert_counter"%string) 4%N (Some "u32"%string) []); (Field (Some "delete_counter"%string) 4%N (Some "u32"%string) [])]) []).
Definition md_t464 : ty := (Ty ["bounded_collections"%string; "bounded_vec"%string; "BoundedVec"%string] [("T"%string,(Some 2%N)); ("S"%string,None)] (TComposite [(Field None 13%N (Some "Vec<T>"%string) [])]) []).
Definition md_t465 : ty := (Ty ["pallet_contracts"%string; "schedule"%string; "Schedule"%string] [("T"%string,None)] (TComposite [(Field (Some "limits"%string) 466%N (Some "Limits"%string) []); (Field (Some "instruction_weights"%string) 467%N (Some "InstructionWeights<T>"%string) []); (Field (Some "host_fn_weights"%string) 468%N (Some "HostFnWeights<T>"%string) [])]) []).
Definition md_t466 : ty := (Ty ["pallet_contracts"%string; "schedule"%string; "Limits"%string] [] (TComposite [(Field (Some "event_topics"%string) 4%N (Some "u32"%string) []); (Field (Some "globals"%string) 4%N (Some "u32"%string) []); (Field (Some "locals"%string) 4%N (Some "u32"%string) []); (Field (Some "parameters"%string) 4%N (Some "u32"%string) []); (Field (Some "memory_pages"%string) 4%N (Some "u32"%string) []); (Field (Some "table_size"%string) 4%N (Some "u32"%string) []); (Field (Some "br_table_size"%string) 4%N (Some "u32"%string) []); (Field (Some "subject_len"%string) 4%N (Some "u32"%string) []); (Field (Some "payload_len"%string) 4%N (Some "u32"%string) []); (Field (Some "runtime_memory"%string) 4%N (Some "u32"%string) [])]) []).
Definition md_t467 : ty := (Ty ["pallet_contracts"%string; "schedule"%string; "InstructionWeights"%string] [("T"%string,None)] (TComposite [(Field (Some "version"%string) 4%N (Some "u32"%string) []); (Field (Some "fallback"%string) 4%N (Some "u32"%string) []); (Field (Some "i64const"%string) 4%N (Some "u32"%string) []); (Field (Some "i64load"%string) 4%N (Some "u32"%string) []); (Field (Some "i64store"%string) 4%N (Some "u32"%string) []); (Field (Some "select"%string) 4%N (Some "u32"%string) []); (Field (Some "r#if"%string) 4%N (Some "u32"%string) []); (Field (Some "br"%string) 4%N (Some "u32"%string) []); (Field (Some "br_if"%string) 4%N (Some "u32"%string) []); (Field (Some "br_table"%string) 4%N (Some "u32"%string) []); (Field (Some "br_table_per_entry"%string) 4%N (Some "u32"%string) []); (Field (Some "call"%string) 4%N (Some "u32"%string) []); (Field (Some "call_indirect"%string) 4%N (Some "u32"%string) []); (Field (Some "call_per_local"%string) 4%N (Some "u32"%string) []); (Field (Some "local_get"%string) 4%N (Some "u32"%string) []); (Field (Some "local_set"%string) 4%N (Some "u32"%string) []); (Field (Some "local_tee"%string) 4%N (Some "u32"%string) []); (Field (Some "global_get"%string) 4%N (Some "u32"%string) []); (Field (Some "global_set"%string) 4%N (Some "u32"%string) []); (Field (Some "memory_current"%string) 4%N (Some "u32"%string) []); (Field (Some "memory_grow"%string) 4%N (Some "u32"%string) []); (Field (Some "i64clz"%string) 4%N (Some "u32"%string) []); (Field (Some "i64ctz"%string) 4%N (Some "u32"%string) []); (Field (Some "i64popcnt"%string) 4%N (Some "u32"%string) []); (Field (Some "i64eqz"%string) 4%N (Some "u32"%string) []); (Field (Some "i64extendsi32"%string) 4%N (Some "u32"%string) []); (Field (Some "i64extendui32"%string) 4%N (Some "u32"%string) []); (Field (Some "i32wrapi64"%string) 4%N (Some "u32"%string) []); (Field (Some "i64eq"%string) 4%N (Some "u32"%string) []); (Field (Some "i64ne"%string) 4%N (Some "u32"%string) []); (Field (Some "i64lts"%string) 4%N (Some "u32"%string) []); (Field (Some "i64ltu"%string) 4%N (Some "u32"%string) []); (Field (Some "i64gts"%string) 4%N (Some "u32"%string) []); (Field (Some "i64gtu"%string) 4%N (Some "u32"%string) []); (Field (Some "i64les"%string) 4%N (Some "u32"%string) []); (Field (Some "i64leu"%string) 4%N (Some "u32"%string) []); (Field (Some "i64ges"%string) 4%N (Some "u32"%string) []); (Field (Some "i64geu"%string) 4%N (Some "u32"%string) []); (Field (Some "i64add"%string) 4%N (Some "u32"%string) []); (Field (Some "i64sub"%string) 4%N (Some "u32"%string) []); (Field (Some "i64mul"%string) 4%N (Some "u32"%string) []); (Field (Some "i64divs"%string) 4%N (Some "u32"%string) []); (Field (Some "i64divu"%string) 4%N (Some "u32"%string) []); (Field (Some "i64rems"%string) 4%N (Some "u32"%string) []); (Field (Some "i64remu"%string) 4%N (Some "u32"%string) []); (Field (Some "i64and"%string) 4%N (Some "u32"%string) []); (Field (Some "i64or"%string) 4%N (Some "u32"%string) []); (Field (Some "i64xor"%string) 4%N (Some "u32"%string) []); (Field (Some "i64shl"%string) 4%N (Some "u32"%string) []); (Field (Some "i64shrs"%string) 4%N (Some "u32"%string) []); (Field (Some "i64shru"%string) 4%N (Some "u32"%string) []); (Field (Some "i64rotl"%string) 4%N (Some "u32"%string) []); (Field (Some "i64rotr"%string) 4%N (Some "u32"%string) [])]) []).
Definition md_t468 : ty := (Ty ["pallet_contracts"%string; "schedule"%string; "HostFnWeights"%string] [("T"%string,None)] (TComposite [(Field (Some "caller"%string) 9%N (Some "Weight"%string) []); (Field (Some "is_contract"%string) 9%N (Some "Weight"%string) []); (Field (Some "code_hash"%string) 9%N (Some "Weight"%string) []); (Field (Some "own_code_hash"%string) 9%N (Some "Weight"%string) []); (Field (Some "caller_is_origin"%string) 9%N (Some "Weight"%string) []); (Field (Some "caller_is_root"%string) 9%N (Some "Weight"%string) []); (Field (Some "address"%string) 9%N (Some "Weight"%string) []); (Field (Some "gas_left"%string) 9%N (Some "Weight"%string) []); (Field (Some "balance"%string) 9%N (Some "Weight"%string) []); (Field (Some "value_transferred"%string) 9%N (Some "Weight"%string) []); (Field (Some "minimum_balance"%string) 9%N (Some "Weight"%string) []); (Field (Some "block_number"%string) 9%N (Some "Weight"%string) []); (Field (Some "now"%string) 9%N (Some "Weight"%string) []); (Field (Some "weight_to_fee"%string) 9%N (Some "Weight"%string) []); (Field (Some "gas"%string) 9%N (Some "Weight"%string) []); (Field (Some "input"%string) 9%N (Some "Weight"%string) []); (Field (Some "input_per_byte"%string) 9%N (Some "Weight"%string) []); (Field (Some "r#return"%string) 9%N (Some "Weight"%string) []); (Field (Some "return_per_byte"%string) 9%N (Some "Weight"%string) []); (Field (Some "terminate"%string) 9%N (Some "Weight"%string) []); (Field (Some "random"%string) 9%N (Some "Weight"%string) []); (Field (Some "deposit_event"%string) 9%N (Some "Weight"%string) []); (Field (Some "deposit_event_per_topic"%string) 9%N (Some "Weight"%string) []); (Field (Some "deposit_event_per_byte"%string) 9%N (Some "Weight"%string) []); (Field (Some "debug_message"%string) 9%N (Some "Weight"%string) []); (Field (Some "debug_message_per_byte"%string) 9%N (Some "Weight"%string) []); (Field (Some "set_storage"%string) 9%N (Some "Weight"%string) []); (Field (Some "set_storage_per_new_byte"%string) 9%N (Some "Weight"%string) []); (Field (Some "set_storage_per_old_byte"%string) 9%N (Some "Weight"%string) []); (Field (Some "set_code_hash"%string) 9%N (Some "Weight"%string) []); (Field (Some "clear_storage"%string) 9%N (Some "Weight"%string) []); (Field (Some "clear_storage_per_byte"%string) 9%N (Some "Weight"%string) []); (Field (Some "contains_storage"%string) 9%N (Some "Weight"%string) []); (Field (Some "contains_storage_per_byte"%string) 9%N (Some "Weight"%string) []); (Field (Some "get_storage"%string) 9%N (Some "Weight"%string) []); (Field (Some "get_storage_per_byte"%string) 9%N (Some "Weight"%string) []); (Field (Some "take_storage"%string) 9%N (Some "Weight"%string) []); (Field (Some "take_storage_per_byte"%string) 9%N (Some "Weight"%string) []); (Field (Some "transfer"%string) 9%N (Some "Weight"%string) []); (Field (Some "call"%string) 9%N (Some "Weight"%string) []); (Field (Some "delegate_call"%string) 9%N (Some "Weight"%string) []); (Field (Some "call_transfer_surcharge"%string) 9%N (Some "Weight"%string) []); (Field (Some "call_per_cloned_byte"%string) 9%N (Some "Weight"%string) []); (Field (Some "instantiate"%string) 9%N (Some "Weight"%string) []); (Field (Some "instantiate_transfer_surcharge"%string) 9%N (Some "Weight"%string) []); (Field (Some "instantiate_per_input_byte"%string) 9%N (Some "Weight"%string) []); (Field (Some "instantiate_per_salt_byte"%string) 9%N (Some "Weight"%string) []); (Field (Some "hash_sha2_256"%string) 9%N (Some "Weight"%string) []); (Field (Some "hash_sha2_256_per_byte"%string) 9%N (Some "Weight"%string) []); (Field (Some "hash_keccak_256"%string) 9%N (Some "Weight"%string) []); (Field (Some "hash_keccak_256_per_byte"%string) 9%N (Some "Weight"%string) []); (Field (Some "hash_blake2_256"%string) 9%N (Some "Weight"%string) []); (Field (Some "hash_blake2_256_per_byte"%string) 9%N (Some "Weight"%string) []); (Field (Some "hash_blake2_128"%string) 9%N (Some "Weight"%string) []); (Field (Some "hash_blake2_128_per_byte"%string) 9%N (Some "Weight"%string) []); (Field (Some "ecdsa_recover"%string) 9%N (Some "Weight"%string) []); (Field (Some "ecdsa_to_eth_address"%string) 9%N (Some "Weight"%string) []); (Field (Some "sr25519_verify"%string) 9%N (Some "Weight"%string) []); (Field (Some "sr25519_verify_per_byte"%string) 9%N (Some "Weight"%string) []); (Field (Some "reentrance_count"%string) 9%N (Some "Weight"%string) []); (Field (Some "account_reentrance_count"%string) 9%N (Some "Weight"%string) []); (Field (Some "instantiation_nonce"%string) 9%N (Some "Weight"%string) [])]) []).
Definition md_t469 : ty := (Ty ["pallet_contracts"%string; "pallet"%string; "Error"%string] [("T"%string,None)] (TVariant [(Variant "InvalidScheduleVersion"%string [] 0%N ["A new schedule must have a greater version than the current one."%string]); (Variant "InvalidCallFlags"%string [] 1%N ["Invalid combination of flags supplied to `seal_call` or `seal_delegate_call`."%string]); (Variant "OutOfGas"%string [] 2%N ["The executed contract exhausted its gas limit."%string]); (Variant "OutputBufferTooSmall"%string [] 3%N ["The output buffer supplied to a contract API call was too small."%string]); (Variant "TransferFailed"%string [] 4%N ["Performing the requested transfer failed. Probably because there isn't enough"%string; "free balance in the sender's account."%string]); (Variant "MaxCallDepthReached"%string [] 5%N ["Performing a call was denied because the calling depth reached the limit"%string; "of what is specified in the schedule."%string]); (Variant "ContractNotFound"%string [] 6%N ["No contract was found at the specified address."%string]); (Variant "CodeTooLarge"%string [] 7%N ["The code supplied to `instantiate_with_code` exceeds the limit specified in the"%string; "current schedule."%string]); (Variant "CodeNotFound"%string [] 8%N ["No code could be found at the supplied code hash."%string]); (Variant "OutOfBounds"%string [] 9%N ["A buffer outside of sandbox memory was passed to a contract API function."%string]); (Variant "DecodingFailed"%string [] 10%N ["Input passed to a contract API function failed to decode as expected type."%string]); (Variant "ContractTrapped"%string [] 11%N ["Contract trapped during execution."%string]); (Variant "ValueTooLarge"%string [] 12%N ["The size defined in `T::MaxValueSize` was exceeded."%string]); (Variant "TerminatedWhileReentrant"%string [] 13%N ["Termination of a contract is not allowed while the contract is already"%string; "on the call stack. Can be triggered by `seal_terminate`."%string]); (Variant "InputForwarded"%string [] 14%N ["`seal_call` forwarded this contracts input. It therefore is no longer available."%string]); (Variant "RandomSubjectTooLong"%string [] 15%N ["The subject passed to `seal_random` exceeds the limit."%string]); (Variant "TooManyTopics"%string [] 16%N ["The amount of topics passed to `seal_deposit_events` exceeds the limit."%string]); (Variant "NoChainExtension"%string [] 17%N ["The chain does not provide a chain extension. Calling the chain extension results"%string; "in this error. Note that this usually  shouldn't happen as deploying such contracts"%string; "is rejected."%string]); (Variant "DuplicateContract"%string [] 18%N ["A contract with the same AccountId already exists."%string]); (Variant "TerminatedInConstructor"%string [] 19%N ["A contract self destructed in its constructor."%string; ""%string; "This can be triggered by a call to `seal_terminate`."%string]); (Variant "ReentranceDenied"%string [] 20%N ["A call tried to invoke a contract that is flagged as non-reentrant."%string; "The only other cause is that a call from a contract into the runtime tried to call back"%string; "into `pallet-contracts`. This would make the whole pallet reentrant with regard to"%string; "contract code execution which is not supported."%string]); (Variant "StorageDepositNotEnoughFunds"%string [] 21%N ["Origin doesn't have enough balance to pay the required storage deposits."%string]); (Variant "StorageDepositLimitExhausted"%string [] 22%N ["More storage was created than allowed by the storage deposit limit."%string]); (Variant "CodeInUse"%string [] 23%N ["Code removal was denied because the code is still in use by at least one contract."%string]); (Variant "ContractReverted"%string [] 24%N ["The contract ran to completion but decided to revert its storage changes."%string; "Please note that this error is only returned from extrinsics. When called directly"%string; "or via RPC an `Ok` will be returned. In this case the caller needs to inspect the flags"%string; "to determine whether a reversion has taken place."%string]); (Variant "CodeRejected"%string [] 25%N ["The contract's code was found to be invalid during validation or instrumentation."%string; ""%string; "The most likely cause of this is that an API was used which is not supported by the"%string; "node. This happens if an older node is used with a new version of ink!. Try updating"%string; "your node to the newest available version."%string; ""%string; "A more detailed error can be found on the node console if debug messages are enabled"%string; "by supplying `-lruntime::contracts=debug`."%string]); (Variant "Indeterministic"%string [] 26%N ["An indetermistic code was used in a context where this is not permitted."%string]); (Variant "MigrationInProgress"%string [] 27%N ["A pending migration needs to complete before the extrinsic can be called."%string]); (Variant "NoMigrationPerformed"%string [] 28%N ["Migrate dispatch call was attempted but no migration was performed."%string])]) ["
			Custom [dispatch errors](https://docs.substrate.io/main-docs/build/events-errors/)
			of this pallet.
			"%string]).
Definition md_t470 : ty := (Ty ["pallet_sudo"%string; "pallet"%string; "Error"%string] [("T"%string,None)] (TVariant [(Variant "RequireSudo"%string [] 0%N ["Sender must be the Sudo account"%string])]) ["Error for the Sudo pallet"%string]).
Definition md_t471 : ty := (Ty ["fp_self_contained"%string; "unchecked_extrinsic"%string; "UncheckedExtrinsic"%string] [("Address"%string,(Some 166%N)); ("Call"%string,(Some 164%N)); ("Signature"%string,(Some 472%N)); ("Extra"%string,(Some 478%N))] (TComposite [(Field None 487%N (Some "sp_runtime::generic::UncheckedExtrinsic<Address, Call, Signature, Extra
>"%string) [])]) []).
Definition md_t472 : ty := (Ty ["sp_runtime"%string; "MultiSignature"%string] [] (TVariant [(Variant "Ed25519"%string [(Field None 473%N (Some "ed25519::Signature"%string) [])] 0%N []); (Variant "Sr25519"%string [(Field None 475%N (Some "sr25519::Signature"%string) [])] 1%N []); (Variant "Ecdsa"%string [(Field None 476%N (Some "ecdsa::Signature"%string) [])] 2%N [])]) []).
Definition md_t473 : ty := (Ty ["sp_core"%string; "ed25519"%string; "Signature"%string] [] (TComposite [(Field None 474%N (Some "[u8; 64]"%string) [])]) []).
Definition md_t474 : ty := (Ty [] [] (TArray 64%N 2%N) []).
Definition md_t475 : ty := (Ty ["sp_core"%string; "sr25519"%string; "Signature"%string] [] (TComposite [(Field None 474%N (Some "[u8; 64]"%string) [])]) []).
Definition md_t476 : ty := (Ty ["sp_core"%string; "ecdsa"%string; "Signature"%string] [] (TComposite [(Field None 477%N (Some "[u8; 65]"%string) [])]) []).
Definition md_t477 : ty := (Ty [] [] (TArray 65%N 2%N) []).
Definition md_t478 : ty := (Ty [] [] (TTuple [479%N; 480%N; 481%N; 482%N; 484%N; 485%N; 486%N]) []).
Definition md_t479 : ty := (Ty ["frame_system"%string; "extensions"%string; "check_spec_version"%string; "CheckSpecVersion"%string] [("T"%string,None)] (TComposite []) []).
Definition md_t480 : ty := (Ty ["frame_system"%string; "extensions"%string; "check_tx_version"%string; "CheckTxVersion"%string] [("T"%string,None)] (TComposite []) []).
Definition md_t481 : ty := (Ty ["frame_system"%string; "extensions"%string; "check_genesis"%string; "CheckGenesis"%string] [("T"%string,None)] (TComposite []) []).
Definition md_t482 : ty := (Ty ["frame_system"%string; "extensions"%string; "check_mortality"%string; "CheckMortality"%string] [("T"%string,None)] (TComposite [(Field None 483%N (Some "Era"%string) [])]) []).
Definition md_t483 : ty := (Ty ["sp_runtime"%string; "generic"%string; "era"%string; "Era"%string] [] (TVariant [(Variant "Immortal"%string [] 0%N []); (Variant "Mortal1"%string [(Field None 2%N None [])] 1%N []); (Variant "Mortal2"%string [(Field None 2%N None [])] 2%N []); (Variant "Mortal3"%string [(Field None 2%N None [])] 3%N []); (Variant "Mortal4"%string [(Field None 2%N None [])] 4%N []); (Variant "Mortal5"%string [(Field None 2%N None [])] 5%N []); (Variant "Mortal6"%string [(Field None 2%N None [])] 6%N []); (Variant "Mortal7"%string [(Field None 2%N None [])] 7%N []); (Variant "Mortal8"%string [(Field None 2%N None [])] 8%N []); (Variant "Mortal9"%string [(Field None 2%N None [])] 9%N []); (Variant "Mortal10"%string [(Field None 2%N None [])] 10%N []); (Variant "Mortal11"%string [(Field None 2%N None [])] 11%N []); (Variant "Mortal12"%string [(Field None 2%N None [])] 12%N []); (Variant "Mortal13"%string [(Field None 2%N None [])] 13%N []); (Variant "Mortal14"%string [(Field None 2%N None [])] 14%N []); (Variant "Mortal15"%string [(Field None 2%N None [])] 15%N []); (Variant "Mortal16"%string [(Field None 2%N None [])] 16%N []); (Variant "Mortal17"%string [(Field None 2%N None [])] 17%N []); (Variant "Mortal18"%string [(Field None 2%N None [])] 18%N []); (Variant "Mortal19"%string [(Field None 2%N None [])] 19%N []); (Variant "Mortal20"%string [(Field None 2%N None [])] 20%N []); (Variant "Mortal21"%string [(Field None 2%N None [])] 21%N []); (Variant "Mortal22"%string [(Field None 2%N None [])] 22%N []); (Variant "Mortal23"%string [(Field None 2%N None [])] 23%N []); (Variant "Mortal24"%string [(Field None 2%N None [])] 24%N []); (Variant "Mortal25"%string [(Field None 2%N None [])] 25%N []); (Variant "Mortal26"%string [(Field None 2%N None [])] 26%N []); (Variant "Mortal27"%string [(Field None 2%N None [])] 27%N []); (Variant "Mortal28"%string [(Field None 2%N None [])] 28%N []); (Variant "Mortal29"%string [(Field None 2%N None [])] 29%N []); (Variant "Mortal30"%string [(Field None 2%N None [])] 30%N []); (Variant "Mortal31"%string [(Field None 2%N None [])] 31%N []); (Variant "Mortal32"%string [(Field None 2%N None [])] 32%N []); (Variant "Mortal33"%string [(Field None 2%N None [])] 33%N []); (Variant "Mortal34"%string [(Field None 2%N None [])] 34%N []); (Variant "Mortal35"%string [(Field None 2%N None [])] 35%N []); (Variant "Mortal36"%string [(Field None 2%N None [])] 36%N []); (Variant "Mortal37"%string [(Field None 2%N None [])] 37%N []); (Variant "Mortal38"%string [(Field None 2%N None [])] 38%N []); (Variant "Mortal39"%string [(Field None 2%N None [])] 39%N []); (Variant "Mortal40"%string [(Field None 2%N None [])] 40%N []); (Variant "Mortal41"%string [(Field None 2%N None [])] 41%N []); (Variant "Mortal42"%string [(Field None 2%N None [])] 42%N []); (Variant "Mortal43"%string [(Field None 2%N None [])] 43%N []); (Variant "Mortal44"%string [(Field None 2%N None [])] 44%N []); (Variant "Mortal45"%string [(Field None 2%N None [])] 45%N []); (Variant "Mortal46"%string [(Field None 2%N None [])] 46%N []); (Variant "Mortal47"%string [(Field None 2%N None [])] 47%N []); (Variant "Mortal48"%string [(Field None 2%N None [])] 48%N []); (Variant "Mortal49"%string [(Field None 2%N None [])] 49%N []); (Variant "Mortal50"%string [(Field None 2%N None [])] 50%N []); (Variant "Mortal51"%string [(Field None 2%N None [])] 51%N []); (Variant "Mortal52"%string [(Field None 2%N None [])] 52%N []); (Variant "Mortal53"%string [(Field None 2%N None [])] 53%N []); (Variant "Mortal54"%string [(Field None 2%N None [])] 54%N []); (Variant "Mortal55"%string [(Field None 2%N None [])] 55%N []); (Variant "Mortal56"%string [(Field None 2%N None [])] 56%N []); (Variant "Mortal57"%string [(Field None 2%N None [])] 57%N []); (Variant "Mortal58"%string [(Field None 2%N None [])] 58%N []); (Variant "Mortal59"%string [(Field None 2%N None [])] 59%N []); (Variant "Mortal60"%string [(Field None 2%N None [])] 60%N []); (Variant "Mortal61"%string [(Field None 2%N None [])] 61%N []); (Variant "Mortal62"%string [(Field None 2%N None [])] 62%N []); (Variant "Mortal63"%string [(Field None 2%N None [])] 63%N []); (Variant "Mortal64"%string [(Field None 2%N None [])] 64%N []); (Variant "Mortal65"%string [(Field None 2%N None [])] 65%N []); (Variant "Mortal66"%string [(Field None 2%N None [])] 66%N []); (Variant "Mortal67"%string [(Field None 2%N None [])] 67%N []); (Variant "Mortal68"%string [(Field None 2%N None [])] 68%N []); (Variant "Mortal69"%string [(Field None 2%N None [])] 69%N []); (Variant "Mortal70"%string [(Field None 2%N None [])] 70%N []); (Variant "Mortal71"%string [(Field None 2%N None [])] 71%N []); (Variant "Mortal72"%string [(Field None 2%N None [])] 72%N []); (Variant "Mortal73"%string [(Field None 2%N None [])] 73%N []); (Variant "Mortal74"%string [(Field None 2%N None [])] 74%N []); (Variant "Mortal75"%string [(Field None 2%N None [])] 75%N []); (Variant "Mortal76"%string [(Field None 2%N None [])] 76%N []); (Variant "Mortal77"%string [(Field None 2%N None [])] 77%N []); (Variant "Mortal78"%string [(Field None 2%N None [])] 78%N []); (Variant "Mortal79"%string [(Field None 2%N None [])] 79%N []); (Variant "Mortal80"%string [(Field None 2%N None [])] 80%N []); (Variant "Mortal81"%string [(Field None 2%N None [])] 81%N []); (Variant "Mortal82"%string [(Field None 2%N None [])] 82%N []); (Variant "Mortal83"%string [(Field None 2%N None [])] 83%N []); (Variant "Mortal84"%string [(Field None 2%N None [])] 84%N []); (Variant "Mortal85"%string [(Field None 2%N None [])] 85%N []); (Variant "Mortal86"%string [(Field None 2%N None [])] 86%N []); (Variant "Mortal87"%string [(Field None 2%N None [])] 87%N []); (Variant "Mortal88"%string [(Field None 2%N None [])] 88%N []); (Variant "Mortal89"%string [(Field None 2%N None [])] 89%N []); (Variant "Mortal90"%string [(Field None 2%N None [])] 90%N []); (Variant "Mortal91"%string [(Field None 2%N None [])] 91%N []); (Variant "Mortal92"%string [(Field None 2%N None [])] 92%N []); (Variant "Mortal93"%string [(Field None 2%N None [])] 93%N []); (Variant "Mortal94"%string [(Field None 2%N None [])] 94%N []); (Variant "Mortal95"%string [(Field None 2%N None [])] 95%N []); (Variant "Mortal96"%string [(Field None 2%N None [])] 96%N []); (Variant "Mortal97"%string [(Field None 2%N None [])] 97%N []); (Variant "Mortal98"%string [(Field None 2%N None [])] 98%N []); (Variant "Mortal99"%string [(Field None 2%N None [])] 99%N []); (Variant "Mortal100"%string [(Field None 2%N None [])] 100%N []); (Variant "Mortal101"%string [(Field None 2%N None [])] 101%N []); (Variant "Mortal102"%string [(Field None 2%N None [])] 102%N []); (Variant "Mortal103"%string [(Field None 2%N None [])] 103%N []); (Variant "Mortal104"%string [(Field None 2%N None [])] 104%N []); (Variant "Mortal105"%string [(Field None 2%N None [])] 105%N []); (Variant "Mortal106"%string [(Field None 2%N None [])] 106%N []); (Variant "Mortal107"%string [(Field None 2%N None [])] 107%N []); (Variant "Mortal108"%string [(Field None 2%N None [])] 108%N []); (Variant "Mortal109"%string [(Field None 2%N None [])] 109%N []); (Variant "Mortal110"%string [(Field None 2%N None [])] 110%N []); (Variant "Mortal111"%string [(Field None 2%N None [])] 111%N []); (Variant "Mortal112"%string [(Field None 2%N None [])] 112%N []); (Variant "Mortal113"%string [(Field None 2%N None [])] 113%N []); (Variant "Mortal114"%string [(Field None 2%N None [])] 114%N []); (Variant "Mortal115"%string [(Field None 2%N None [])] 115%N []); (Variant "Mortal116"%string [(Field None 2%N None [])] 116%N []); (Variant "Mortal117"%string [(Field None 2%N None [])] 117%N []); (Variant "Mortal118"%string [(Field None 2%N None [])] 118%N []); (Variant "Mortal119"%string [(Field None 2%N None [])] 119%N []); (Variant "Mortal120"%string [(Field None 2%N None [])] 120%N []); (Variant "Mortal121"%string [(Field None 2%N None [])] 121%N []); (Variant "Mortal122"%string [(Field None 2%N None [])] 122%N []); (Variant "Mortal123"%string [(Field None 2%N None [])] 123%N []); (Variant "Mortal124"%string [(Field None 2%N None [])] 124%N []); (Variant "Mortal125"%string [(Field None 2%N None [])] 125%N []); (Variant "Mortal126"%string [(Field None 2%N None [])] 126%N []); (Variant "Mortal127"%string [(Field None 2%N None [])] 127%N []); (Variant "Mortal128"%string [(Field None 2%N None [])] 128%N []); (Variant "Mortal129"%string [(Field None 2%N None [])] 129%N []); (Variant "Mortal130"%string [(Field None 2%N None [])] 130%N []); (Variant "Mortal131"%string [(Field None 2%N None [])] 131%N []); (Variant "Mortal132"%string [(Field None 2%N None [])] 132%N []); (Variant "Mortal133"%string [(Field None 2%N None [])] 133%N []); (Variant "Mortal134"%string [(Field None 2%N None [])] 134%N []); (Variant "Mortal135"%string [(Field None 2%N None [])] 135%N []); (Variant "Mortal136"%string [(Field None 2%N None [])] 136%N []); (Variant "Mortal137"%string [(Field None 2%N None [])] 137%N []); (Variant "Mortal138"%string [(Field None 2%N None [])] 138%N []); (Variant "Mortal139"%string [(Field None 2%N None [])] 139%N []); (Variant "Mortal140"%string [(Field None 2%N None [])] 140%N []); (Variant "Mortal141"%string [(Field None 2%N None [])] 141%N []); (Variant "Mortal142"%string [(Field None 2%N None [])] 142%N []); (Variant "Mortal143"%string [(Field None 2%N None [])] 143%N []); (Variant "Mortal144"%string [(Field None 2%N None [])] 144%N []); (Variant "Mortal145"%string [(Field None 2%N None [])] 145%N []); (Variant "Mortal146"%string [(Field None 2%N None [])] 146%N []); (Variant "Mortal147"%string [(Field None 2%N None [])] 147%N []); (Variant "Mortal148"%string [(Field None 2%N None [])] 148%N []); (Variant "Mortal149"%string [(Field None 2%N None [])] 149%N []); (Variant "Mortal150"%string [(Field None 2%N None [])] 150%N []); (Variant "Mortal151"%string [(Field None 2%N None [])] 151%N []); (Variant "Mortal152"%string [(Field None 2%N None [])] 152%N []); (Variant "Mortal153"%string [(Field None 2%N None [])] 153%N []); (Variant "Mortal154"%string [(Field None 2%N None [])] 154%N []); (Variant "Mortal155"%string [(Field None 2%N None [])] 155%N []); (Variant "Mortal156"%string [(Field None 2%N None [])] 156%N []); (Variant "Mortal157"%string [(Field None 2%N None [])] 157%N []); (Variant "Mortal158"%string [(Field None 2%N None [])] 158%N []); (Variant "Mortal159"%string [(Field None 2%N None [])] 159%N []); (Variant "Mortal160"%string [(Field None 2%N None [])] 160%N []); (Variant "Mortal161"%string [(Field None 2%N None [])] 161%N []); (Variant "Mortal162"%string [(Field None 2%N None [])] 162%N []); (Variant "Mortal163"%string [(Field None 2%N None [])] 163%N []); (Variant "Mortal164"%string [(Field None 2%N None [])] 164%N []); (Variant "Mortal165"%string [(Field None 2%N None [])] 165%N []); (Variant "Mortal166"%string [(Field None 2%N None [])] 166%N []); (Variant "Mortal167"%string [(Field None 2%N None [])] 167%N []); (Variant "Mortal168"%string [(Field None 2%N None [])] 168%N []); (Variant "Mortal169"%string [(Field None 2%N None [])] 169%N []); (Variant "Mortal170"%string [(Field None 2%N None [])] 170%N []); (Variant "Mortal171"%string [(Field None 2%N None [])] 171%N []); (Variant "Mortal172"%string [(Field None 2%N None [])] 172%N []); (Variant "Mortal173"%string [(Field None 2%N None [])] 173%N []); (Variant "Mortal174"%string [(Field None 2%N None [])] 174%N []); (Variant "Mortal175"%string [(Field None 2%N None [])] 175%N []); (Variant "Mortal176"%string [(Field None 2%N None [])] 176%N []); (Variant "Mortal177"%string [(Field None 2%N None [])] 177%N []); (Variant "Mortal178"%string [(Field None 2%N None [])] 178%N []); (Variant "Mortal179"%string [(Field None 2%N None [])] 179%N []); (Variant "Mortal180"%string [(Field None 2%N None [])] 180%N []); (Variant "Mortal181"%string [(Field None 2%N None [])] 181%N []); (Variant "Mortal182"%string [(Field None 2%N None [])] 182%N []); (Variant "Mortal183"%string [(Field None 2%N None [])] 183%N []); (Variant "Mortal184"%string [(Field None 2%N None [])] 184%N []); (Variant "Mortal185"%string [(Field None 2%N None [])] 185%N []); (Variant "Mortal186"%string [(Field None 2%N None [])] 186%N []); (Variant "Mortal187"%string [(Field None 2%N None [])] 187%N []); (Variant "Mortal188"%string [(Field None 2%N None [])] 188%N []); (Variant "Mortal189"%string [(Field None 2%N None [])] 189%N []); (Variant "Mortal190"%string [(Field None 2%N None [])] 190%N []); (Variant "Mortal191"%string [(Field None 2%N None [])] 191%N []); (Variant "Mortal192"%string [(Field None 2%N None [])] 192%N []); (Variant "Mortal193"%string [(Field None 2%N None [])] 193%N []); (Variant "Mortal194"%string [(Field None 2%N None [])] 194%N []); (Variant "Mortal195"%string [(Field None 2%N None [])] 195%N []); (Variant "Mortal196"%string [(Field None 2%N None [])] 196%N []); (Variant "Mortal197"%string [(Field None 2%N None [])] 197%N []); (Variant "Mortal198"%string [(Field None 2%N None [])] 198%N []); (Variant "Mortal199"%string [(Field None 2%N None [])] 199%N []); (Variant "Mortal200"%string [(Field None 2%N None [])] 200%N []); (Variant "Mortal201"%string [(Field None 2%N None [])] 201%N []); (Variant "Mortal202"%string [(Field None 2%N None [])] 202%N []); (Variant "Mortal203"%string [(Field None 2%N None [])] 203%N []); (Variant "Mortal204"%string [(Field None 2%N None [])] 204%N []); (Variant "Mortal205"%string [(Field None 2%N None [])] 205%N []); (Variant "Mortal206"%string [(Field None 2%N None [])] 206%N []); (Variant "Mortal207"%string [(Field None 2%N None [])] 207%N []); (Variant "Mortal208"%string [(Field None 2%N None [])] 208%N []); (Variant "Mortal209"%string [(Field None 2%N None [])] 209%N []); (Variant "Mortal210"%string [(Field None 2%N None [])] 210%N []); (Variant "Mortal211"%string [(Field None 2%N None [])] 211%N []); (Variant "Mortal212"%string [(Field None 2%N None [])] 212%N []); (Variant "Mortal213"%string [(Field None 2%N None [])] 213%N []); (Variant "Mortal214"%string [(Field None 2%N None [])] 214%N []); (Variant "Mortal215"%string [(Field None 2%N None [])] 215%N []); (Variant "Mortal216"%string [(Field None 2%N None [])] 216%N []); (Variant "Mortal217"%string [(Field None 2%N None [])] 217%N []); (Variant "Mortal218"%string [(Field None 2%N None [])] 218%N []); (Variant "Mortal219"%string [(Field None 2%N None [])] 219%N []); (Variant "Mortal220"%string [(Field None 2%N None [])] 220%N []); (Variant "Mortal221"%string [(Field None 2%N None [])] 221%N []); (Variant "Mortal222"%string [(Field None 2%N None [])] 222%N []); (Variant "Mortal223"%string [(Field None 2%N None [])] 223%N []); (Variant "Mortal224"%string [(Field None 2%N None [])] 224%N []); (Variant "Mortal225"%string [(Field None 2%N None [])] 225%N []); (Variant "Mortal226"%string [(Field None 2%N None [])] 226%N []); (Variant "Mortal227"%string [(Field None 2%N None [])] 227%N []); (Variant "Mortal228"%string [(Field None 2%N None [])] 228%N []); (Variant "Mortal229"%string [(Field None 2%N None [])] 229%N []); (Variant "Mortal230"%string [(Field None 2%N None [])] 230%N []); (Variant "Mortal231"%string [(Field None 2%N None [])] 231%N []); (Variant "Mortal232"%string [(Field None 2%N None [])] 232%N []); (Variant "Mortal233"%string [(Field None 2%N None [])] 233%N []); (Variant "Mortal234"%string [(Field None 2%N None [])] 234%N []); (Variant "Mortal235"%string [(Field None 2%N None [])] 235%N []); (Variant "Mortal236"%string [(Field None 2%N None [])] 236%N []); (Variant "Mortal237"%string [(Field None 2%N None [])] 237%N []); (Variant "Mortal238"%string [(Field None 2%N None [])] 238%N []); (Variant "Mortal239"%string [(Field None 2%N None [])] 239%N []); (Variant "Mortal240"%string [(Field None 2%N None [])] 240%N []); (Variant "Mortal241"%string [(Field None 2%N None [])] 241%N []); (Variant "Mortal242"%string [(Field None 2%N None [])] 242%N []); (Variant "Mortal243"%string [(Field None 2%N None [])] 243%N []); (Variant "Mortal244"%string [(Field None 2%N None [])] 244%N []); (Variant "Mortal245"%string [(Field None 2%N None [])] 245%N []); (Variant "Mortal246"%string [(Field None 2%N None [])] 246%N []); (Variant "Mortal247"%string [(Field None 2%N None [])] 247%N []); (Variant "Mortal248"%string [(Field None 2%N None [])] 248%N []); (Variant "Mortal249"%string [(Field None 2%N None [])] 249%N []); (Variant "Mortal250"%string [(Field None 2%N None [])] 250%N []); (Variant "Mortal251"%string [(Field None 2%N None [])] 251%N []); (Variant "Mortal252"%string [(Field None 2%N None [])] 252%N []); (Variant "Mortal253"%string [(Field None 2%N None [])] 253%N []); (Variant "Mortal254"%string [(Field None 2%N None [])] 254%N []); (Variant "Mortal255"%string [(Field None 2%N None [])] 255%N [])]) []).
Definition md_t484 : ty := (Ty ["frame_system"%string; "extensions"%string; "check_nonce"%string; "CheckNonce"%string] [("T"%string,None)] (TComposite [(Field None 67%N (Some "T::Index"%string) [])]) []).
Definition md_t485 : ty := (Ty ["frame_system"%string; "extensions"%string; "check_weight"%string; "CheckWeight"%string] [("T"%string,None)] (TComposite []) []).
Definition md_t486 : ty := (Ty ["pallet_transaction_payment"%string; "ChargeTransactionPayment"%string] [("T"%string,None)] (TComposite [(Field None 70%N (Some "BalanceOf<T>"%string) [])]) []).
Definition md_t487 : ty := (Ty ["sp_runtime"%string; "generic"%string; "unchecked_extrinsic"%string; "UncheckedExtrinsic"%string] [("Address"%string,(Some 166%N)); ("Call"%string,(Some 164%N)); ("Signature"%string,(Some 472%N)); ("Extra"%string,(Some 478%N))] (TComposite [(Field None 13%N None [])]) []).
Definition md_types : list ty := [md_t0; md_t1; md_t2; md_t3; md_t4; md_t5; md_t6; md_t7; md_t8; md_t9; md_t10; md_t11; md_t12; md_t13; md_t14; md_t15; md_t16; md_t17; md_t18; md_t19; md_t20; md_t21; md_t22; md_t23; md_t24; md_t25; md_t26; md_t27; md_t28; md_t29; md_t30; md_t31; md_t32; md_t33; md_t34; md_t35; md_t36; md_t37; md_t38; md_t39; md_t40; md_t41; md_t42; md_t43; md_t44; md_t45; md_t46; md_t47; md_t48; md_t49; md_t50; md_t51; md_t52; md_t53; md_t54; md_t55; md_t56; md_t57; md_t58; md_t59; md_t60; md_t61; md_t62; md_t63; md_t64; md_t65; md_t66; md_t67; md_t68; md_t69; md_t70; md_t71; md_t72; md_t73; md_t74; md_t75; md_t76; md_t77; md_t78; md_t79; md_t80; md_t81; md_t82; md_t83; md_t84; md_t85; md_t86; md_t87; md_t88; md_t89; md_t90; md_t91; md_t92; md_t93; md_t94; md_t95; md_t96; md_t97; md_t98; md_t99; md_t100; md_t101; md_t102; md_t103; md_t104; md_t105; md_t106; md_t107; md_t108; md_t109; md_t110; md_t111; md_t112; md_t113; md_t114; md_t115; md_t116; md_t117; md_t118; md_t119; md_t120; md_t121; md_t122; md_t123; md_t124; md_t125; md_t126; md_t127; md_t128; md_t129; md_t130; md_t131; md_t132; md_t133; md_t134; md_t135; md_t136; md_t137; md_t138; md_t139; md_t140; md_t141; md_t142; md_t143; md_t144; md_t145; md_t146; md_t147; md_t148; md_t149; md_t150; md_t151; md_t152; md_t153; md_t154; md_t155; md_t156; md_t157; md_t158; md_t159; md_t160; md_t161; md_t162; md_t163; md_t164; md_t165; md_t166; md_t167; md_t168; md_t169; md_t170; md_t171; md_t172; md_t173; md_t174; md_t175; md_t176; md_t177; md_t178; md_t179; md_t180; md_t181; md_t182; md_t183; md_t184; md_t185; md_t186; md_t187; md_t188; md_t189; md_t190; md_t191; md_t192; md_t193; md_t194; md_t195; md_t196; md_t197; md_t198; md_t199; md_t200; md_t201; md_t202; md_t203; md_t204; md_t205; md_t206; md_t207; md_t208; md_t209; md_t210; md_t211; md_t212; md_t213; md_t214; md_t215; md_t216; md_t217; md_t218; md_t219; md_t220; md_t221; md_t222; md_t223; md_t224; md_t225; md_t226; md_t227; md_t228; md_t229; md_t230; md_t231; md_t232; md_t233; md_t234; md_t235; md_t236; md_t237; md_t238; md_t239; md_t240; md_t241; md_t242; md_t243; md_t244; md_t245; md_t246; md_t247; md_t248; md_t249; md_t250; md_t251; md_t252; md_t253; md_t254; md_t255; md_t256; md_t257; md_t258; md_t259; md_t260; md_t261; md_t262; md_t263; md_t264; md_t265; md_t266; md_t267; md_t268; md_t269; md_t270; md_t271; md_t272; md_t273; md_t274; md_t275; md_t276; md_t277; md_t278; md_t279; md_t280; md_t281; md_t282; md_t283; md_t284; md_t285; md_t286; md_t287; md_t288; md_t289; md_t290; md_t291; md_t292; md_t293; md_t294; md_t295; md_t296; md_t297; md_t298; md_t299; md_t300; md_t301; md_t302; md_t303; md_t304; md_t305; md_t306; md_t307; md_t308; md_t309; md_t310; md_t311; md_t312; md_t313; md_t314; md_t315; md_t316; md_t317; md_t318; md_t319; md_t320; md_t321; md_t322; md_t323; md_t324; md_t325; md_t326; md_t327; md_t328; md_t329; md_t330; md_t331; md_t332; md_t333; md_t334; md_t335; md_t336; md_t337; md_t338; md_t339; md_t340; md_t341; md_t342; md_t343; md_t344; md_t345; md_t346; md_t347; md_t348; md_t349; md_t350; md_t351; md_t352; md_t353; md_t354; md_t355; md_t356; md_t357; md_t358; md_t359; md_t360; md_t361; md_t362; md_t363; md_t364; md_t365; md_t366; md_t367; md_t368; md_t369; md_t370; md_t371; md_t372; md_t373; md_t374; md_t375; md_t376; md_t377; md_t378; md_t379; md_t380; md_t381; md_t382; md_t383; md_t384; md_t385; md_t386; md_t387; md_t388; md_t389; md_t390; md_t391; md_t392; md_t393; md_t394; md_t395; md_t396; md_t397; md_t398; md_t399; md_t400; md_t401; md_t402; md_t403; md_t404; md_t405; md_t406; md_t407; md_t408; md_t409; md_t410; md_t411; md_t412; md_t413; md_t414; md_t415; md_t416; md_t417; md_t418; md_t419; md_t420; md_t421; md_t422; md_t423; md_t424; md_t425; md_t426; md_t427; md_t428; md_t429; md_t430; md_t431; md_t432; md_t433; md_t434; md_t435; md_t436; md_t437; md_t438; md_t439; md_t440; md_t441; md_t442; md_t443; md_t444; md_t445; md_t446; md_t447; md_t448; md_t449; md_t450; md_t451; md_t452; md_t453; md_t454; md_t455; md_t456; md_t457; md_t458; md_t459; md_t460; md_t461; md_t462; md_t463; md_t464; md_t465; md_t466; md_t467; md_t468; md_t469; md_t470; md_t471; md_t472; md_t473; md_t474; md_t475; md_t476; md_t477; md_t478; md_t479; md_t480; md_t481; md_t482; md_t483; md_t484; md_t485; md_t486; md_t487].
Definition md := metadata_of_v14 (MetadataV14 md_types [(Pallet "System"%string [(Constant "Version"%string [20%N; 97%N; 115%N; 116%N; 97%N; 114%N; 20%N; 97%N; 115%N; 116%N; 97%N; 114%N; 1%N; 0%N; 0%N; 0%N; 66%N; 0%N; 0%N; 0%N; 0%N; 0%N; 0%N; 0%N; 56%N; 223%N; 106%N; 203%N; 104%N; 153%N; 7%N; 96%N; 155%N; 4%N; 0%N; 0%N; 0%N; 55%N; 227%N; 151%N; 252%N; 124%N; 145%N; 245%N; 228%N; 2%N; 0%N; 0%N; 0%N; 221%N; 113%N; 141%N; 92%N; 197%N; 50%N; 98%N; 212%N; 1%N; 0%N; 0%N; 0%N; 64%N; 254%N; 58%N; 212%N; 1%N; 248%N; 149%N; 154%N; 6%N; 0%N; 0%N; 0%N; 210%N; 188%N; 152%N; 151%N; 238%N; 208%N; 143%N; 21%N; 3%N; 0%N; 0%N; 0%N; 247%N; 139%N; 39%N; 139%N; 229%N; 63%N; 69%N; 76%N; 2%N; 0%N; 0%N; 0%N; 188%N; 157%N; 137%N; 144%N; 79%N; 91%N; 146%N; 63%N; 1%N; 0%N; 0%N; 0%N; 55%N; 200%N; 187%N; 19%N; 80%N; 169%N; 162%N; 168%N; 4%N; 0%N; 0%N; 0%N; 243%N; 255%N; 20%N; 213%N; 171%N; 82%N; 112%N; 89%N; 3%N; 0%N; 0%N; 0%N; 171%N; 60%N; 5%N; 114%N; 41%N; 31%N; 235%N; 139%N; 1%N; 0%N; 0%N; 0%N; 234%N; 147%N; 227%N; 241%N; 111%N; 61%N; 105%N; 98%N; 2%N; 0%N; 0%N; 0%N; 88%N; 34%N; 17%N; 246%N; 91%N; 177%N; 75%N; 137%N; 5%N; 0%N; 0%N; 0%N; 230%N; 91%N; 0%N; 228%N; 108%N; 237%N; 208%N; 170%N; 2%N; 0%N; 0%N; 0%N; 104%N; 182%N; 107%N; 161%N; 34%N; 201%N; 63%N; 167%N; 2%N; 0%N; 0%N; 0%N; 2%N; 0%N; 0%N; 0%N; 1%N] 157%N)]); (Pallet "Utility"%string []); (Pallet "Identity"%string []); (Pallet "Timestamp"%string []); (Pallet "Multisig"%string []); (Pallet "Proxy"%string []); (Pallet "ParachainSystem"%string []); (Pallet "ParachainInfo"%string []); (Pallet "TransactionPayment"%string []); (Pallet "Balances"%string []); (Pallet "Vesting"%string []); (Pallet "DappsStaking"%string []); (Pallet "BlockReward"%string []); (Pallet "Assets"%string []); (Pallet "Authorship"%string []); (Pallet "CollatorSelection"%string []); (Pallet "Session"%string []); (Pallet "Aura"%string []); (Pallet "AuraExt"%string []); (Pallet "XcmpQueue"%string []); (Pallet "PolkadotXcm"%string []); (Pallet "CumulusXcm"%string []); (Pallet "DmpQueue"%string []); (Pallet "XcAssetConfig"%string []); (Pallet "Xtokens"%string []); (Pallet "EVM"%string []); (Pallet "Ethereum"%string []); (Pallet "EthCall"%string []); (Pallet "BaseFee"%string []); (Pallet "Contracts"%string []); (Pallet "Sudo"%string [])] 471%N 4%N [(ExtMeta "CheckSpecVersion"%string 479%N 4%N); (ExtMeta "CheckTxVersion"%string 480%N 4%N); (ExtMeta "CheckGenesis"%string 481%N 12%N); (ExtMeta "CheckMortality"%string 482%N 12%N); (ExtMeta "CheckNonce"%string 484%N 32%N); (ExtMeta "CheckWeight"%string 485%N 32%N); (ExtMeta "ChargeTransactionPayment"%string 486%N 32%N)]).
Definition nv := match m_spec_name_version md with inl x => x | inr _ => SpecNameVersion "" [] end.
Example tr_10_call :
 match (parse_transaction_unmarked (slice_buffer (unhex "1f00001b7a61c73f450f4518731981d9cdd99013cfe044294617b74f93ba4bba6090d00b63ce64c10c05d5030403d202964942000000020000009eb76c5184c4ab8679d2d5d819fdf90b9c001403e9e17da2e14b6d8aec4029c69eb76c5184c4ab8679d2d5d819fdf90b9c001403e9e17da2e14b6d8aec4029c6"%string)) md (Some (unhex "9eb76c5184c4ab8679d2d5d819fdf90b9c001403e9e17da2e14b6d8aec4029c6")) 0 tt) with (Ok (c, x), _, _) => show_all bs (card_call b58 idn (ShortSpecs 5%N 18%N "ASTR") (string_of_bytes (spec_name nv)) c 0) | _ => "FAIL"%string end
 = "Pallet: Balances
  Call: transfer_allow_death
    Field Name: dest
      Enum
        Enum Variant Name: Id
          Id: WZKwYJmVxzxqF9UbaATqjyYY2859mZEfcTAQEDaXipQYG5w
    Field Name: value
      Balance: 5.552342355555 uASTR"%string.
Proof. vm_compute. reflexivity. Qed.
Example tr_10_extensions :
 match (parse_transaction_unmarked (slice_buffer (unhex "1f00001b7a61c73f450f4518731981d9cdd99013cfe044294617b74f93ba4bba6090d00b63ce64c10c05d5030403d202964942000000020000009eb76c5184c4ab8679d2d5d819fdf90b9c001403e9e17da2e14b6d8aec4029c69eb76c5184c4ab8679d2d5d819fdf90b9c001403e9e17da2e14b6d8aec4029c6"%string)) md (Some (unhex "9eb76c5184c4ab8679d2d5d819fdf90b9c001403e9e17da2e14b6d8aec4029c6")) 0 tt) with (Ok (c, x), _, _) => show_all bs (card_extensions b58 idn (ShortSpecs 5%N 18%N "ASTR") (string_of_bytes (spec_name nv)) x) | _ => "FAIL"%string end
 = "Era: Mortal, phase: 61, period: 64
Nonce: 1
Tip: 1.234567890 nASTR
Chain: astar66
Tx Version: 2
Genesis Hash: 9eb76c5184c4ab8679d2d5d819fdf90b9c001403e9e17da2e14b6d8aec4029c6
Block Hash: 9eb76c5184c4ab8679d2d5d819fdf90b9c001403e9e17da2e14b6d8aec4029c6"%string.
Proof. vm_compute. reflexivity. Qed.
