(** GENERATED by /verif/tools/gen4.py from /repo/for_tests/westmint9270, westmint9270_spoiled_digest and /repo/src/tests.rs: tests of the
    repository replayed on the model (tests of the fidelity of the model, not proofs of
    properties). *)
From Verif Require Import Base Compact Types Indicators Decode Sign Storage Api ApiStorage.
From Verif Require Blake2b Twox.
Fixpoint unhex (s : string) : bytes :=
  let v c := let n := N_of_ascii c in if (n <? 58)%N then (n - 48)%N else (n - 87)%N in
  match s with String a (String b r) => (16 * v a + v b)%N :: unhex r | _ => [] end.
Definition t0 : ty := (Ty ["sp_core"%string; "crypto"%string; "AccountId32"%string] [] (TComposite [(Field None 1%N (Some "[u8; 32]"%string) [])]) []).
Definition t1 : ty := (Ty [] [] (TArray 32%N 2%N) []).
Definition t2 : ty := (Ty [] [] (TPrimitive (PrU U8)) []).
Definition t3 : ty := (Ty ["frame_system"%string; "AccountInfo"%string] [("Index"%string,(Some 4%N)); ("AccountData"%string,(Some 5%N))] (TComposite [(Field (Some "nonce"%string) 4%N (Some "Index"%string) []); (Field (Some "consumers"%string) 4%N (Some "RefCount"%string) []); (Field (Some "providers"%string) 4%N (Some "RefCount"%string) []); (Field (Some "sufficients"%string) 4%N (Some "RefCount"%string) []); (Field (Some "data"%string) 5%N (Some "AccountData"%string) [])]) []).
Definition t4 : ty := (Ty [] [] (TPrimitive (PrU U32)) []).
Definition t5 : ty := (Ty ["pallet_balances"%string; "AccountData"%string] [("Balance"%string,(Some 6%N))] (TComposite [(Field (Some "free"%string) 6%N (Some "Balance"%string) []); (Field (Some "reserved"%string) 6%N (Some "Balance"%string) []); (Field (Some "misc_frozen"%string) 6%N (Some "Balance"%string) []); (Field (Some "fee_frozen"%string) 6%N (Some "Balance"%string) [])]) []).
Definition t6 : ty := (Ty [] [] (TPrimitive (PrU U128)) []).
Definition t7 : ty := (Ty ["frame_support"%string; "weights"%string; "PerDispatchClass"%string] [("T"%string,(Some 8%N))] (TComposite [(Field (Some "normal"%string) 8%N (Some "T"%string) []); (Field (Some "operational"%string) 8%N (Some "T"%string) []); (Field (Some "mandatory"%string) 8%N (Some "T"%string) [])]) []).
Definition t8 : ty := (Ty [] [] (TPrimitive (PrU U64)) []).
Definition t9 : ty := (Ty ["primitive_types"%string; "H256"%string] [] (TComposite [(Field None 1%N (Some "[u8; 32]"%string) [])]) []).
Definition t10 : ty := (Ty [] [] (TSequence 2%N) []).
Definition t11 : ty := (Ty ["sp_runtime"%string; "generic"%string; "digest"%string; "Digest"%string] [] (TComposite [(Field (Some "logs"%string) 12%N (Some "Vec<DigestItem>"%string) [])]) []).
Definition t12 : ty := (Ty [] [] (TSequence 13%N) []).
Definition t13 : ty := (Ty ["sp_runtime"%string; "generic"%string; "digest"%string; "DigestItem"%string] [] (TVariant [(Variant "PreRuntime"%string [(Field None 14%N (Some "ConsensusEngineId"%string) []); (Field None 10%N (Some "Vec<u8>"%string) [])] 6%N []); (Variant "Consensus"%string [(Field None 14%N (Some "ConsensusEngineId"%string) []); (Field None 10%N (Some "Vec<u8>"%string) [])] 4%N []); (Variant "Seal"%string [(Field None 14%N (Some "ConsensusEngineId"%string) []); (Field None 10%N (Some "Vec<u8>"%string) [])] 5%N []); (Variant "Other"%string [(Field None 10%N (Some "Vec<u8>"%string) [])] 0%N []); (Variant "RuntimeEnvironmentUpdated"%string [] 8%N [])]) []).
Definition t14 : ty := (Ty [] [] (TArray 4%N 2%N) []).
Definition t15 : ty := (Ty [] [] (TSequence 16%N) []).
Definition t16 : ty := (Ty ["frame_system"%string; "EventRecord"%string] [("E"%string,(Some 17%N)); ("T"%string,(Some 9%N))] (TComposite [(Field (Some "phase"%string) 97%N (Some "Phase"%string) []); (Field (Some "event"%string) 17%N (Some "E"%string) []); (Field (Some "topics"%string) 98%N (Some "Vec<T>"%string) [])]) []).
Definition t17 : ty := (Ty ["westmint_runtime"%string; "Event"%string] [] (TVariant [(Variant "System"%string [(Field None 18%N (Some "frame_system::Event<Runtime>"%string) [])] 0%N []); (Variant "ParachainSystem"%string [(Field None 27%N (Some "cumulus_pallet_parachain_system::Event<Runtime>"%string) [])] 1%N []); (Variant "Balances"%string [(Field None 28%N (Some "pallet_balances::Event<Runtime>"%string) [])] 10%N []); (Variant "TransactionPayment"%string [(Field None 30%N (Some "pallet_transaction_payment::Event<Runtime>"%string) [])] 11%N []); (Variant "CollatorSelection"%string [(Field None 31%N (Some "pallet_collator_selection::Event<Runtime>"%string) [])] 21%N []); (Variant "Session"%string [(Field None 33%N (Some "pallet_session::Event"%string) [])] 22%N []); (Variant "XcmpQueue"%string [(Field None 34%N (Some "cumulus_pallet_xcmp_queue::Event<Runtime>"%string) [])] 30%N []); (Variant "PolkadotXcm"%string [(Field None 38%N (Some "pallet_xcm::Event<Runtime>"%string) [])] 31%N []); (Variant "CumulusXcm"%string [(Field None 78%N (Some "cumulus_pallet_xcm::Event<Runtime>"%string) [])] 32%N []); (Variant "DmpQueue"%string [(Field None 79%N (Some "cumulus_pallet_dmp_queue::Event<Runtime>"%string) [])] 33%N []); (Variant "Utility"%string [(Field None 80%N (Some "pallet_utility::Event"%string) [])] 40%N []); (Variant "Multisig"%string [(Field None 83%N (Some "pallet_multisig::Event<Runtime>"%string) [])] 41%N []); (Variant "Proxy"%string [(Field None 85%N (Some "pallet_proxy::Event<Runtime>"%string) [])] 42%N []); (Variant "Assets"%string [(Field None 88%N (Some "pallet_assets::Event<Runtime>"%string) [])] 50%N []); (Variant "Uniques"%string [(Field None 90%N (Some "pallet_uniques::Event<Runtime>"%string) [])] 51%N [])]) []).
Definition t18 : ty := (Ty ["frame_system"%string; "pallet"%string; "Event"%string] [("T"%string,None)] (TVariant [(Variant "ExtrinsicSuccess"%string [(Field (Some "dispatch_info"%string) 19%N (Some "DispatchInfo"%string) [])] 0%N ["An extrinsic completed successfully."%string]); (Variant "ExtrinsicFailed"%string [(Field (Some "dispatch_error"%string) 22%N (Some "DispatchError"%string) []); (Field (Some "dispatch_info"%string) 19%N (Some "DispatchInfo"%string) [])] 1%N ["An extrinsic failed."%string]); (Variant "CodeUpdated"%string [] 2%N ["`:code` was updated."%string]); (Variant "NewAccount"%string [(Field (Some "account"%string) 0%N (Some "T::AccountId"%string) [])] 3%N ["A new account was created."%string]); (Variant "KilledAccount"%string [(Field (Some "account"%string) 0%N (Some "T::AccountId"%string) [])] 4%N ["An account was reaped."%string]); (Variant "Remarked"%string [(Field (Some "sender"%string) 0%N (Some "T::AccountId"%string) []); (Field (Some "hash"%string) 9%N (Some "T::Hash"%string) [])] 5%N ["On on-chain remark happened."%string])]) ["Event for the System pallet."%string]).
Definition t19 : ty := (Ty ["frame_support"%string; "weights"%string; "DispatchInfo"%string] [] (TComposite [(Field (Some "weight"%string) 8%N (Some "Weight"%string) []); (Field (Some "class"%string) 20%N (Some "DispatchClass"%string) []); (Field (Some "pays_fee"%string) 21%N (Some "Pays"%string) [])]) []).
Definition t20 : ty := (Ty ["frame_support"%string; "weights"%string; "DispatchClass"%string] [] (TVariant [(Variant "Normal"%string [] 0%N []); (Variant "Operational"%string [] 1%N []); (Variant "Mandatory"%string [] 2%N [])]) []).
Definition t21 : ty := (Ty ["frame_support"%string; "weights"%string; "Pays"%string] [] (TVariant [(Variant "Yes"%string [] 0%N []); (Variant "No"%string [] 1%N [])]) []).
Definition t22 : ty := (Ty ["sp_runtime"%string; "DispatchError"%string] [] (TVariant [(Variant "Other"%string [] 0%N []); (Variant "CannotLookup"%string [] 1%N []); (Variant "BadOrigin"%string [] 2%N []); (Variant "Module"%string [(Field None 23%N (Some "ModuleError"%string) [])] 3%N []); (Variant "ConsumerRemaining"%string [] 4%N []); (Variant "NoProviders"%string [] 5%N []); (Variant "TooManyConsumers"%string [] 6%N []); (Variant "Token"%string [(Field None 24%N (Some "TokenError"%string) [])] 7%N []); (Variant "Arithmetic"%string [(Field None 25%N (Some "ArithmeticError"%string) [])] 8%N []); (Variant "Transactional"%string [(Field None 26%N (Some "TransactionalError"%string) [])] 9%N [])]) []).
Definition t23 : ty := (Ty ["sp_runtime"%string; "ModuleError"%string] [] (TComposite [(Field (Some "index"%string) 2%N (Some "u8"%string) []); (Field (Some "error"%string) 14%N (Some "[u8; MAX_MODULE_ERROR_ENCODED_SIZE]"%string) [])]) []).
Definition t24 : ty := (Ty ["sp_runtime"%string; "TokenError"%string] [] (TVariant [(Variant "NoFunds"%string [] 0%N []); (Variant "WouldDie"%string [] 1%N []); (Variant "BelowMinimum"%string [] 2%N []); (Variant "CannotCreate"%string [] 3%N []); (Variant "UnknownAsset"%string [] 4%N []); (Variant "Frozen"%string [] 5%N []); (Variant "Unsupported"%string [] 6%N [])]) []).
Definition t25 : ty := (Ty ["sp_runtime"%string; "ArithmeticError"%string] [] (TVariant [(Variant "Underflow"%string [] 0%N []); (Variant "Overflow"%string [] 1%N []); (Variant "DivisionByZero"%string [] 2%N [])]) []).
Definition t26 : ty := (Ty ["sp_runtime"%string; "TransactionalError"%string] [] (TVariant [(Variant "LimitReached"%string [] 0%N []); (Variant "NoLayer"%string [] 1%N [])]) []).
Definition t27 : ty := (Ty ["cumulus_pallet_parachain_system"%string; "pallet"%string; "Event"%string] [("T"%string,None)] (TVariant [(Variant "ValidationFunctionStored"%string [] 0%N ["The validation function has been scheduled to apply."%string]); (Variant "ValidationFunctionApplied"%string [(Field (Some "relay_chain_block_num"%string) 4%N (Some "RelayChainBlockNumber"%string) [])] 1%N ["The validation function was applied as of the contained relay chain block number."%string]); (Variant "ValidationFunctionDiscarded"%string [] 2%N ["The relay-chain aborted the upgrade process."%string]); (Variant "UpgradeAuthorized"%string [(Field (Some "code_hash"%string) 9%N (Some "T::Hash"%string) [])] 3%N ["An upgrade has been authorized."%string]); (Variant "DownwardMessagesReceived"%string [(Field (Some "count"%string) 4%N (Some "u32"%string) [])] 4%N ["Some downward messages have been received and will be processed."%string]); (Variant "DownwardMessagesProcessed"%string [(Field (Some "weight_used"%string) 8%N (Some "Weight"%string) []); (Field (Some "dmq_head"%string) 9%N (Some "relay_chain::Hash"%string) [])] 5%N ["Downward messages were processed using the given weight."%string])]) ["
			The [event](https://docs.substrate.io/v3/runtime/events-and-errors) emitted
			by this pallet.
			"%string]).
Definition t28 : ty := (Ty ["pallet_balances"%string; "pallet"%string; "Event"%string] [("T"%string,None); ("I"%string,None)] (TVariant [(Variant "Endowed"%string [(Field (Some "account"%string) 0%N (Some "T::AccountId"%string) []); (Field (Some "free_balance"%string) 6%N (Some "T::Balance"%string) [])] 0%N ["An account was created with some free balance."%string]); (Variant "DustLost"%string [(Field (Some "account"%string) 0%N (Some "T::AccountId"%string) []); (Field (Some "amount"%string) 6%N (Some "T::Balance"%string) [])] 1%N ["An account was removed whose balance was non-zero but below ExistentialDeposit,"%string; "resulting in an outright loss."%string]); (Variant "Transfer"%string [(Field (Some "from"%string) 0%N (Some "T::AccountId"%string) []); (Field (Some "to"%string) 0%N (Some "T::AccountId"%string) []); (Field (Some "amount"%string) 6%N (Some "T::Balance"%string) [])] 2%N ["Transfer succeeded."%string]); (Variant "BalanceSet"%string [(Field (Some "who"%string) 0%N (Some "T::AccountId"%string) []); (Field (Some "free"%string) 6%N (Some "T::Balance"%string) []); (Field (Some "reserved"%string) 6%N (Some "T::Balance"%string) [])] 3%N ["A balance was set by root."%string]); (Variant "Reserved"%string [(Field (Some "who"%string) 0%N (Some "T::AccountId"%string) []); (Field (Some "amount"%string) 6%N (Some "T::Balance"%string) [])] 4%N ["Some balance was reserved (moved from free to reserved)."%string]); (Variant "Unreserved"%string [(Field (Some "who"%string) 0%N (Some "T::AccountId"%string) []); (Field (Some "amount"%string) 6%N (Some "T::Balance"%string) [])] 5%N ["Some balance was unreserved (moved from reserved to free)."%string]); (Variant "ReserveRepatriated"%string [(Field (Some "from"%string) 0%N (Some "T::AccountId"%string) []); (Field (Some "to"%string) 0%N (Some "T::AccountId"%string) []); (Field (Some "amount"%string) 6%N (Some "T::Balance"%string) []); (Field (Some "destination_status"%string) 29%N (Some "Status"%string) [])] 6%N ["Some balance was moved from the reserve of the first account to the second account."%string; "Final argument indicates the destination balance type."%string]); (Variant "Deposit"%string [(Field (Some "who"%string) 0%N (Some "T::AccountId"%string) []); (Field (Some "amount"%string) 6%N (Some "T::Balance"%string) [])] 7%N ["Some amount was deposited (e.g. for transaction fees)."%string]); (Variant "Withdraw"%string [(Field (Some "who"%string) 0%N (Some "T::AccountId"%string) []); (Field (Some "amount"%string) 6%N (Some "T::Balance"%string) [])] 8%N ["Some amount was withdrawn from the account (e.g. for transaction fees)."%string]); (Variant "Slashed"%string [(Field (Some "who"%string) 0%N (Some "T::AccountId"%string) []); (Field (Some "amount"%string) 6%N (Some "T::Balance"%string) [])] 9%N ["Some amount was removed from the account (e.g. for misbehavior)."%string])]) ["
			The [event](https://docs.substrate.io/v3/runtime/events-and-errors) emitted
			by this pallet.
			"%string]).
Definition t29 : ty := (Ty ["frame_support"%string; "traits"%string; "tokens"%string; "misc"%string; "BalanceStatus"%string] [] (TVariant [(Variant "Free"%string [] 0%N []); (Variant "Reserved"%string [] 1%N [])]) []).
Definition t30 : ty := (Ty ["pallet_transaction_payment"%string; "pallet"%string; "Event"%string] [("T"%string,None)] (TVariant [(Variant "TransactionFeePaid"%string [(Field (Some "who"%string) 0%N (Some "T::AccountId"%string) []); (Field (Some "actual_fee"%string) 6%N (Some "BalanceOf<T>"%string) []); (Field (Some "tip"%string) 6%N (Some "BalanceOf<T>"%string) [])] 0%N ["A transaction fee `actual_fee`, of which `tip` was added to the minimum inclusion fee,"%string; "has been paid by `who`."%string])]) ["
			The [event](https://docs.substrate.io/v3/runtime/events-and-errors) emitted
			by this pallet.
			"%string]).
Definition t31 : ty := (Ty ["pallet_collator_selection"%string; "pallet"%string; "Event"%string] [("T"%string,None)] (TVariant [(Variant "NewInvulnerables"%string [(Field (Some "invulnerables"%string) 32%N (Some "Vec<T::AccountId>"%string) [])] 0%N []); (Variant "NewDesiredCandidates"%string [(Field (Some "desired_candidates"%string) 4%N (Some "u32"%string) [])] 1%N []); (Variant "NewCandidacyBond"%string [(Field (Some "bond_amount"%string) 6%N (Some "BalanceOf<T>"%string) [])] 2%N []); (Variant "CandidateAdded"%string [(Field (Some "account_id"%string) 0%N (Some "T::AccountId"%string) []); (Field (Some "deposit"%string) 6%N (Some "BalanceOf<T>"%string) [])] 3%N []); (Variant "CandidateRemoved"%string [(Field (Some "account_id"%string) 0%N (Some "T::AccountId"%string) [])] 4%N [])]) ["
			The [event](https://docs.substrate.io/v3/runtime/events-and-errors) emitted
			by this pallet.
			"%string]).
Definition t32 : ty := (Ty [] [] (TSequence 0%N) []).
Definition t33 : ty := (Ty ["pallet_session"%string; "pallet"%string; "Event"%string] [] (TVariant [(Variant "NewSession"%string [(Field (Some "session_index"%string) 4%N (Some "SessionIndex"%string) [])] 0%N ["New session has happened. Note that the argument is the session index, not the"%string; "block number as the type might suggest."%string])]) ["
			The [event](https://docs.substrate.io/v3/runtime/events-and-errors) emitted
			by this pallet.
			"%string]).
Definition t34 : ty := (Ty ["cumulus_pallet_xcmp_queue"%string; "pallet"%string; "Event"%string] [("T"%string,None)] (TVariant [(Variant "Success"%string [(Field (Some "message_hash"%string) 35%N (Some "Option<T::Hash>"%string) []); (Field (Some "weight"%string) 8%N (Some "Weight"%string) [])] 0%N ["Some XCM was executed ok."%string]); (Variant "Fail"%string [(Field (Some "message_hash"%string) 35%N (Some "Option<T::Hash>"%string) []); (Field (Some "error"%string) 36%N (Some "XcmError"%string) []); (Field (Some "weight"%string) 8%N (Some "Weight"%string) [])] 1%N ["Some XCM failed."%string]); (Variant "BadVersion"%string [(Field (Some "message_hash"%string) 35%N (Some "Option<T::Hash>"%string) [])] 2%N ["Bad XCM version used."%string]); (Variant "BadFormat"%string [(Field (Some "message_hash"%string) 35%N (Some "Option<T::Hash>"%string) [])] 3%N ["Bad XCM format used."%string]); (Variant "UpwardMessageSent"%string [(Field (Some "message_hash"%string) 35%N (Some "Option<T::Hash>"%string) [])] 4%N ["An upward message was sent to the relay chain."%string]); (Variant "XcmpMessageSent"%string [(Field (Some "message_hash"%string) 35%N (Some "Option<T::Hash>"%string) [])] 5%N ["An HRMP message was sent to a sibling parachain."%string]); (Variant "OverweightEnqueued"%string [(Field (Some "sender"%string) 37%N (Some "ParaId"%string) []); (Field (Some "sent_at"%string) 4%N (Some "RelayBlockNumber"%string) []); (Field (Some "index"%string) 8%N (Some "OverweightIndex"%string) []); (Field (Some "required"%string) 8%N (Some "Weight"%string) [])] 6%N ["An XCM exceeded the individual message weight budget."%string]); (Variant "OverweightServiced"%string [(Field (Some "index"%string) 8%N (Some "OverweightIndex"%string) []); (Field (Some "used"%string) 8%N (Some "Weight"%string) [])] 7%N ["An XCM from the overweight queue was executed with the given actual weight used."%string])]) ["
			The [event](https://docs.substrate.io/v3/runtime/events-and-errors) emitted
			by this pallet.
			"%string]).
Definition t35 : ty := (Ty ["Option"%string] [("T"%string,(Some 9%N))] (TVariant [(Variant "None"%string [] 0%N []); (Variant "Some"%string [(Field None 9%N None [])] 1%N [])]) []).
Definition t36 : ty := (Ty ["xcm"%string; "v2"%string; "traits"%string; "Error"%string] [] (TVariant [(Variant "Overflow"%string [] 0%N []); (Variant "Unimplemented"%string [] 1%N []); (Variant "UntrustedReserveLocation"%string [] 2%N []); (Variant "UntrustedTeleportLocation"%string [] 3%N []); (Variant "MultiLocationFull"%string [] 4%N []); (Variant "MultiLocationNotInvertible"%string [] 5%N []); (Variant "BadOrigin"%string [] 6%N []); (Variant "InvalidLocation"%string [] 7%N []); (Variant "AssetNotFound"%string [] 8%N []); (Variant "FailedToTransactAsset"%string [] 9%N []); (Variant "NotWithdrawable"%string [] 10%N []); (Variant "LocationCannotHold"%string [] 11%N []); (Variant "ExceedsMaxMessageSize"%string [] 12%N []); (Variant "DestinationUnsupported"%string [] 13%N []); (Variant "Transport"%string [] 14%N []); (Variant "Unroutable"%string [] 15%N []); (Variant "UnknownClaim"%string [] 16%N []); (Variant "FailedToDecode"%string [] 17%N []); (Variant "MaxWeightInvalid"%string [] 18%N []); (Variant "NotHoldingFees"%string [] 19%N []); (Variant "TooExpensive"%string [] 20%N []); (Variant "Trap"%string [(Field None 8%N (Some "u64"%string) [])] 21%N []); (Variant "UnhandledXcmVersion"%string [] 22%N []); (Variant "WeightLimitReached"%string [(Field None 8%N (Some "Weight"%string) [])] 23%N []); (Variant "Barrier"%string [] 24%N []); (Variant "WeightNotComputable"%string [] 25%N [])]) []).
Definition t37 : ty := (Ty ["polkadot_parachain"%string; "primitives"%string; "Id"%string] [] (TComposite [(Field None 4%N (Some "u32"%string) [])]) []).
Definition t38 : ty := (Ty ["pallet_xcm"%string; "pallet"%string; "Event"%string] [("T"%string,None)] (TVariant [(Variant "Attempted"%string [(Field None 39%N (Some "xcm::latest::Outcome"%string) [])] 0%N ["Execution of an XCM message was attempted."%string; ""%string; "\[ outcome \]"%string]); (Variant "Sent"%string [(Field None 40%N (Some "MultiLocation"%string) []); (Field None 40%N (Some "MultiLocation"%string) []); (Field None 51%N (Some "Xcm<()>"%string) [])] 1%N ["A XCM message was sent."%string; ""%string; "\[ origin, destination, message \]"%string]); (Variant "UnexpectedResponse"%string [(Field None 40%N (Some "MultiLocation"%string) []); (Field None 8%N (Some "QueryId"%string) [])] 2%N ["Query response received which does not match a registered query. This may be because a"%string; "matching query was never registered, it may be because it is a duplicate response, or"%string; "because the query timed out."%string; ""%string; "\[ origin location, id \]"%string]); (Variant "ResponseReady"%string [(Field None 8%N (Some "QueryId"%string) []); (Field None 62%N (Some "Response"%string) [])] 3%N ["Query response has been received and is ready for taking with `take_response`. There is"%string; "no registered notification call."%string; ""%string; "\[ id, response \]"%string]); (Variant "Notified"%string [(Field None 8%N (Some "QueryId"%string) []); (Field None 2%N (Some "u8"%string) []); (Field None 2%N (Some "u8"%string) [])] 4%N ["Query response has been received and query is removed. The registered notification has"%string; "been dispatched and executed successfully."%string; ""%string; "\[ id, pallet index, call index \]"%string]); (Variant "NotifyOverweight"%string [(Field None 8%N (Some "QueryId"%string) []); (Field None 2%N (Some "u8"%string) []); (Field None 2%N (Some "u8"%string) []); (Field None 8%N (Some "Weight"%string) []); (Field None 8%N (Some "Weight"%string) [])] 5%N ["Query response has been received and query is removed. The registered notification could"%string; "not be dispatched because the dispatch weight is greater than the maximum weight"%string; "originally budgeted by this runtime for the query result."%string; ""%string; "\[ id, pallet index, call index, actual weight, max budgeted weight \]"%string]); (Variant "NotifyDispatchError"%string [(Field None 8%N (Some "QueryId"%string) []); (Field None 2%N (Some "u8"%string) []); (Field None 2%N (Some "u8"%string) [])] 6%N ["Query response has been received and query is removed. There was a general error with"%string; "dispatching the notification call."%string; ""%string; "\[ id, pallet index, call index \]"%string]); (Variant "NotifyDecodeFailed"%string [(Field None 8%N (Some "QueryId"%string) []); (Field None 2%N (Some "u8"%string) []); (Field None 2%N (Some "u8"%string) [])] 7%N ["Query response has been received and query is removed. The dispatch was unable to be"%string; "decoded into a `Call`; this might be due to dispatch function having a signature which"%string; "is not `(origin, QueryId, Response)`."%string; ""%string; "\[ id, pallet index, call index \]"%string]); (Variant "InvalidResponder"%string [(Field None 40%N (Some "MultiLocation"%string) []); (Field None 8%N (Some "QueryId"%string) []); (Field None 71%N (Some "Option<MultiLocation>"%string) [])] 8%N ["Expected query response has been received but the origin location of the response does"%string; "not match that expected. The query remains registered for a later, valid, response to"%string; "be received and acted upon."%string; ""%string; "\[ origin location, id, expected location \]"%string]); (Variant "InvalidResponderVersion"%string [(Field None 40%N (Some "MultiLocation"%string) []); (Field None 8%N (Some "QueryId"%string) [])] 9%N ["Expected query response has been received but the expected origin location placed in"%string; "storage by this runtime previously cannot be decoded. The query remains registered."%string; ""%string; "This is unexpected (since a location placed in storage in a previously executing"%string; "runtime should be readable prior to query timeout) and dangerous since the possibly"%string; "valid response will be dropped. Manual governance intervention is probably going to be"%string; "needed."%string; ""%string; "\[ origin location, id \]"%string]); (Variant "ResponseTaken"%string [(Field None 8%N (Some "QueryId"%string) [])] 10%N ["Received query response has been read and removed."%string; ""%string; "\[ id \]"%string]); (Variant "AssetsTrapped"%string [(Field None 9%N (Some "H256"%string) []); (Field None 40%N (Some "MultiLocation"%string) []); (Field None 72%N (Some "VersionedMultiAssets"%string) [])] 11%N ["Some assets have been placed in an asset trap."%string; ""%string; "\[ hash, origin, assets \]"%string]); (Variant "VersionChangeNotified"%string [(Field None 40%N (Some "MultiLocation"%string) []); (Field None 4%N (Some "XcmVersion"%string) [])] 12%N ["An XCM version change notification message has been attempted to be sent."%string; ""%string; "\[ destination, result \]"%string]); (Variant "SupportedVersionChanged"%string [(Field None 40%N (Some "MultiLocation"%string) []); (Field None 4%N (Some "XcmVersion"%string) [])] 13%N ["The supported version of a location has been changed. This might be through an"%string; "automatic notification or a manual intervention."%string; ""%string; "\[ location, XCM version \]"%string]); (Variant "NotifyTargetSendFail"%string [(Field None 40%N (Some "MultiLocation"%string) []); (Field None 8%N (Some "QueryId"%string) []); (Field None 36%N (Some "XcmError"%string) [])] 14%N ["A given location which had a version change subscription was dropped owing to an error"%string; "sending the notification to it."%string; ""%string; "\[ location, query ID, error \]"%string]); (Variant "NotifyTargetMigrationFail"%string [(Field None 77%N (Some "VersionedMultiLocation"%string) []); (Field None 8%N (Some "QueryId"%string) [])] 15%N ["A given location which had a version change subscription was dropped owing to an error"%string; "migrating the location to our new XCM format."%string; ""%string; "\[ location, query ID \]"%string])]) ["
			The [event](https://docs.substrate.io/v3/runtime/events-and-errors) emitted
			by this pallet.
			"%string]).
Definition t39 : ty := (Ty ["xcm"%string; "v2"%string; "traits"%string; "Outcome"%string] [] (TVariant [(Variant "Complete"%string [(Field None 8%N (Some "Weight"%string) [])] 0%N []); (Variant "Incomplete"%string [(Field None 8%N (Some "Weight"%string) []); (Field None 36%N (Some "Error"%string) [])] 1%N []); (Variant "Error"%string [(Field None 36%N (Some "Error"%string) [])] 2%N [])]) []).
Definition t40 : ty := (Ty ["xcm"%string; "v1"%string; "multilocation"%string; "MultiLocation"%string] [] (TComposite [(Field (Some "parents"%string) 2%N (Some "u8"%string) []); (Field (Some "interior"%string) 41%N (Some "Junctions"%string) [])]) []).
Definition t41 : ty := (Ty ["xcm"%string; "v1"%string; "multilocation"%string; "Junctions"%string] [] (TVariant [(Variant "Here"%string [] 0%N []); (Variant "X1"%string [(Field None 42%N (Some "Junction"%string) [])] 1%N []); (Variant "X2"%string [(Field None 42%N (Some "Junction"%string) []); (Field None 42%N (Some "Junction"%string) [])] 2%N []); (Variant "X3"%string [(Field None 42%N (Some "Junction"%string) []); (Field None 42%N (Some "Junction"%string) []); (Field None 42%N (Some "Junction"%string) [])] 3%N []); (Variant "X4"%string [(Field None 42%N (Some "Junction"%string) []); (Field None 42%N (Some "Junction"%string) []); (Field None 42%N (Some "Junction"%string) []); (Field None 42%N (Some "Junction"%string) [])] 4%N []); (Variant "X5"%string [(Field None 42%N (Some "Junction"%string) []); (Field None 42%N (Some "Junction"%string) []); (Field None 42%N (Some "Junction"%string) []); (Field None 42%N (Some "Junction"%string) []); (Field None 42%N (Some "Junction"%string) [])] 5%N []); (Variant "X6"%string [(Field None 42%N (Some "Junction"%string) []); (Field None 42%N (Some "Junction"%string) []); (Field None 42%N (Some "Junction"%string) []); (Field None 42%N (Some "Junction"%string) []); (Field None 42%N (Some "Junction"%string) []); (Field None 42%N (Some "Junction"%string) [])] 6%N []); (Variant "X7"%string [(Field None 42%N (Some "Junction"%string) []); (Field None 42%N (Some "Junction"%string) []); (Field None 42%N (Some "Junction"%string) []); (Field None 42%N (Some "Junction"%string) []); (Field None 42%N (Some "Junction"%string) []); (Field None 42%N (Some "Junction"%string) []); (Field None 42%N (Some "Junction"%string) [])] 7%N []); (Variant "X8"%string [(Field None 42%N (Some "Junction"%string) []); (Field None 42%N (Some "Junction"%string) []); (Field None 42%N (Some "Junction"%string) []); (Field None 42%N (Some "Junction"%string) []); (Field None 42%N (Some "Junction"%string) []); (Field None 42%N (Some "Junction"%string) []); (Field None 42%N (Some "Junction"%string) []); (Field None 42%N (Some "Junction"%string) [])] 8%N [])]) []).
Definition t42 : ty := (Ty ["xcm"%string; "v1"%string; "junction"%string; "Junction"%string] [] (TVariant [(Variant "Parachain"%string [(Field None 43%N (Some "u32"%string) [])] 0%N []); (Variant "AccountId32"%string [(Field (Some "network"%string) 44%N (Some "NetworkId"%string) []); (Field (Some "id"%string) 1%N (Some "[u8; 32]"%string) [])] 1%N []); (Variant "AccountIndex64"%string [(Field (Some "network"%string) 44%N (Some "NetworkId"%string) []); (Field (Some "index"%string) 46%N (Some "u64"%string) [])] 2%N []); (Variant "AccountKey20"%string [(Field (Some "network"%string) 44%N (Some "NetworkId"%string) []); (Field (Some "key"%string) 47%N (Some "[u8; 20]"%string) [])] 3%N []); (Variant "PalletInstance"%string [(Field None 2%N (Some "u8"%string) [])] 4%N []); (Variant "GeneralIndex"%string [(Field None 48%N (Some "u128"%string) [])] 5%N []); (Variant "GeneralKey"%string [(Field None 45%N (Some "WeakBoundedVec<u8, ConstU32<32>>"%string) [])] 6%N []); (Variant "OnlyChild"%string [] 7%N []); (Variant "Plurality"%string [(Field (Some "id"%string) 49%N (Some "BodyId"%string) []); (Field (Some "part"%string) 50%N (Some "BodyPart"%string) [])] 8%N [])]) []).
Definition t43 : ty := (Ty [] [] (TCompact 4%N) []).
Definition t44 : ty := (Ty ["xcm"%string; "v0"%string; "junction"%string; "NetworkId"%string] [] (TVariant [(Variant "Any"%string [] 0%N []); (Variant "Named"%string [(Field None 45%N (Some "WeakBoundedVec<u8, ConstU32<32>>"%string) [])] 1%N []); (Variant "Polkadot"%string [] 2%N []); (Variant "Kusama"%string [] 3%N [])]) []).
Definition t45 : ty := (Ty ["sp_runtime"%string; "bounded"%string; "weak_bounded_vec"%string; "WeakBoundedVec"%string] [("T"%string,(Some 2%N)); ("S"%string,None)] (TComposite [(Field None 10%N (Some "Vec<T>"%string) [])]) []).
Definition t46 : ty := (Ty [] [] (TCompact 8%N) []).
Definition t47 : ty := (Ty [] [] (TArray 20%N 2%N) []).
Definition t48 : ty := (Ty [] [] (TCompact 6%N) []).
Definition t49 : ty := (Ty ["xcm"%string; "v0"%string; "junction"%string; "BodyId"%string] [] (TVariant [(Variant "Unit"%string [] 0%N []); (Variant "Named"%string [(Field None 45%N (Some "WeakBoundedVec<u8, ConstU32<32>>"%string) [])] 1%N []); (Variant "Index"%string [(Field None 43%N (Some "u32"%string) [])] 2%N []); (Variant "Executive"%string [] 3%N []); (Variant "Technical"%string [] 4%N []); (Variant "Legislative"%string [] 5%N []); (Variant "Judicial"%string [] 6%N [])]) []).
Definition t50 : ty := (Ty ["xcm"%string; "v0"%string; "junction"%string; "BodyPart"%string] [] (TVariant [(Variant "Voice"%string [] 0%N []); (Variant "Members"%string [(Field (Some "count"%string) 43%N (Some "u32"%string) [])] 1%N []); (Variant "Fraction"%string [(Field (Some "nom"%string) 43%N (Some "u32"%string) []); (Field (Some "denom"%string) 43%N (Some "u32"%string) [])] 2%N []); (Variant "AtLeastProportion"%string [(Field (Some "nom"%string) 43%N (Some "u32"%string) []); (Field (Some "denom"%string) 43%N (Some "u32"%string) [])] 3%N []); (Variant "MoreThanProportion"%string [(Field (Some "nom"%string) 43%N (Some "u32"%string) []); (Field (Some "denom"%string) 43%N (Some "u32"%string) [])] 4%N [])]) []).
Definition t51 : ty := (Ty ["xcm"%string; "v2"%string; "Xcm"%string] [("Call"%string,None)] (TComposite [(Field None 52%N (Some "Vec<Instruction<Call>>"%string) [])]) []).
Definition t52 : ty := (Ty [] [] (TSequence 53%N) []).
Definition t53 : ty := (Ty ["xcm"%string; "v2"%string; "Instruction"%string] [("Call"%string,None)] (TVariant [(Variant "WithdrawAsset"%string [(Field None 54%N (Some "MultiAssets"%string) [])] 0%N []); (Variant "ReserveAssetDeposited"%string [(Field None 54%N (Some "MultiAssets"%string) [])] 1%N []); (Variant "ReceiveTeleportedAsset"%string [(Field None 54%N (Some "MultiAssets"%string) [])] 2%N []); (Variant "QueryResponse"%string [(Field (Some "query_id"%string) 46%N (Some "QueryId"%string) []); (Field (Some "response"%string) 62%N (Some "Response"%string) []); (Field (Some "max_weight"%string) 46%N (Some "u64"%string) [])] 3%N []); (Variant "TransferAsset"%string [(Field (Some "assets"%string) 54%N (Some "MultiAssets"%string) []); (Field (Some "beneficiary"%string) 40%N (Some "MultiLocation"%string) [])] 4%N []); (Variant "TransferReserveAsset"%string [(Field (Some "assets"%string) 54%N (Some "MultiAssets"%string) []); (Field (Some "dest"%string) 40%N (Some "MultiLocation"%string) []); (Field (Some "xcm"%string) 51%N (Some "Xcm<()>"%string) [])] 5%N []); (Variant "Transact"%string [(Field (Some "origin_type"%string) 65%N (Some "OriginKind"%string) []); (Field (Some "require_weight_at_most"%string) 46%N (Some "u64"%string) []); (Field (Some "call"%string) 66%N (Some "DoubleEncoded<Call>"%string) [])] 6%N []); (Variant "HrmpNewChannelOpenRequest"%string [(Field (Some "sender"%string) 43%N (Some "u32"%string) []); (Field (Some "max_message_size"%string) 43%N (Some "u32"%string) []); (Field (Some "max_capacity"%string) 43%N (Some "u32"%string) [])] 7%N []); (Variant "HrmpChannelAccepted"%string [(Field (Some "recipient"%string) 43%N (Some "u32"%string) [])] 8%N []); (Variant "HrmpChannelClosing"%string [(Field (Some "initiator"%string) 43%N (Some "u32"%string) []); (Field (Some "sender"%string) 43%N (Some "u32"%string) []); (Field (Some "recipient"%string) 43%N (Some "u32"%string) [])] 9%N []); (Variant "ClearOrigin"%string [] 10%N []); (Variant "DescendOrigin"%string [(Field None 41%N (Some "InteriorMultiLocation"%string) [])] 11%N []); (Variant "ReportError"%string [(Field (Some "query_id"%string) 46%N (Some "QueryId"%string) []); (Field (Some "dest"%string) 40%N (Some "MultiLocation"%string) []); (Field (Some "max_response_weight"%string) 46%N (Some "u64"%string) [])] 12%N []); (Variant "DepositAsset"%string [(Field (Some "assets"%string) 67%N (Some "MultiAssetFilter"%string) []); (Field (Some "max_assets"%string) 43%N (Some "u32"%string) []); (Field (Some "beneficiary"%string) 40%N (Some "MultiLocation"%string) [])] 13%N []); (Variant "DepositReserveAsset"%string [(Field (Some "assets"%string) 67%N (Some "MultiAssetFilter"%string) []); (Field (Some "max_assets"%string) 43%N (Some "u32"%string) []); (Field (Some "dest"%string) 40%N (Some "MultiLocation"%string) []); (Field (Some "xcm"%string) 51%N (Some "Xcm<()>"%string) [])] 14%N []); (Variant "ExchangeAsset"%string [(Field (Some "give"%string) 67%N (Some "MultiAssetFilter"%string) []); (Field (Some "receive"%string) 54%N (Some "MultiAssets"%string) [])] 15%N []); (Variant "InitiateReserveWithdraw"%string [(Field (Some "assets"%string) 67%N (Some "MultiAssetFilter"%string) []); (Field (Some "reserve"%string) 40%N (Some "MultiLocation"%string) []); (Field (Some "xcm"%string) 51%N (Some "Xcm<()>"%string) [])] 16%N []); (Variant "InitiateTeleport"%string [(Field (Some "assets"%string) 67%N (Some "MultiAssetFilter"%string) []); (Field (Some "dest"%string) 40%N (Some "MultiLocation"%string) []); (Field (Some "xcm"%string) 51%N (Some "Xcm<()>"%string) [])] 17%N []); (Variant "QueryHolding"%string [(Field (Some "query_id"%string) 46%N (Some "QueryId"%string) []); (Field (Some "dest"%string) 40%N (Some "MultiLocation"%string) []); (Field (Some "assets"%string) 67%N (Some "MultiAssetFilter"%string) []); (Field (Some "max_response_weight"%string) 46%N (Some "u64"%string) [])] 18%N []); (Variant "BuyExecution"%string [(Field (Some "fees"%string) 56%N (Some "MultiAsset"%string) []); (Field (Some "weight_limit"%string) 70%N (Some "WeightLimit"%string) [])] 19%N []); (Variant "RefundSurplus"%string [] 20%N []); (Variant "SetErrorHandler"%string [(Field None 51%N (Some "Xcm<Call>"%string) [])] 21%N []); (Variant "SetAppendix"%string [(Field None 51%N (Some "Xcm<Call>"%string) [])] 22%N []); (Variant "ClearError"%string [] 23%N []); (Variant "ClaimAsset"%string [(Field (Some "assets"%string) 54%N (Some "MultiAssets"%string) []); (Field (Some "ticket"%string) 40%N (Some "MultiLocation"%string) [])] 24%N []); (Variant "Trap"%string [(Field None 46%N (Some "u64"%string) [])] 25%N []); (Variant "SubscribeVersion"%string [(Field (Some "query_id"%string) 46%N (Some "QueryId"%string) []); (Field (Some "max_response_weight"%string) 46%N (Some "u64"%string) [])] 26%N []); (Variant "UnsubscribeVersion"%string [] 27%N [])]) []).
Definition t54 : ty := (Ty ["xcm"%string; "v1"%string; "multiasset"%string; "MultiAssets"%string] [] (TComposite [(Field None 55%N (Some "Vec<MultiAsset>"%string) [])]) []).
Definition t55 : ty := (Ty [] [] (TSequence 56%N) []).
Definition t56 : ty := (Ty ["xcm"%string; "v1"%string; "multiasset"%string; "MultiAsset"%string] [] (TComposite [(Field (Some "id"%string) 57%N (Some "AssetId"%string) []); (Field (Some "fun"%string) 58%N (Some "Fungibility"%string) [])]) []).
Definition t57 : ty := (Ty ["xcm"%string; "v1"%string; "multiasset"%string; "AssetId"%string] [] (TVariant [(Variant "Concrete"%string [(Field None 40%N (Some "MultiLocation"%string) [])] 0%N []); (Variant "Abstract"%string [(Field None 10%N (Some "Vec<u8>"%string) [])] 1%N [])]) []).
Definition t58 : ty := (Ty ["xcm"%string; "v1"%string; "multiasset"%string; "Fungibility"%string] [] (TVariant [(Variant "Fungible"%string [(Field None 48%N (Some "u128"%string) [])] 0%N []); (Variant "NonFungible"%string [(Field None 59%N (Some "AssetInstance"%string) [])] 1%N [])]) []).
Definition t59 : ty := (Ty ["xcm"%string; "v1"%string; "multiasset"%string; "AssetInstance"%string] [] (TVariant [(Variant "Undefined"%string [] 0%N []); (Variant "Index"%string [(Field None 48%N (Some "u128"%string) [])] 1%N []); (Variant "Array4"%string [(Field None 14%N (Some "[u8; 4]"%string) [])] 2%N []); (Variant "Array8"%string [(Field None 60%N (Some "[u8; 8]"%string) [])] 3%N []); (Variant "Array16"%string [(Field None 61%N (Some "[u8; 16]"%string) [])] 4%N []); (Variant "Array32"%string [(Field None 1%N (Some "[u8; 32]"%string) [])] 5%N []); (Variant "Blob"%string [(Field None 10%N (Some "Vec<u8>"%string) [])] 6%N [])]) []).
Definition t60 : ty := (Ty [] [] (TArray 8%N 2%N) []).
Definition t61 : ty := (Ty [] [] (TArray 16%N 2%N) []).
Definition t62 : ty := (Ty ["xcm"%string; "v2"%string; "Response"%string] [] (TVariant [(Variant "Null"%string [] 0%N []); (Variant "Assets"%string [(Field None 54%N (Some "MultiAssets"%string) [])] 1%N []); (Variant "ExecutionResult"%string [(Field None 63%N (Some "Option<(u32, Error)>"%string) [])] 2%N []); (Variant "Version"%string [(Field None 4%N (Some "super::Version"%string) [])] 3%N [])]) []).
Definition t63 : ty := (Ty ["Option"%string] [("T"%string,(Some 64%N))] (TVariant [(Variant "None"%string [] 0%N []); (Variant "Some"%string [(Field None 64%N None [])] 1%N [])]) []).
Definition t64 : ty := (Ty [] [] (TTuple [4%N; 36%N]) []).
Definition t65 : ty := (Ty ["xcm"%string; "v0"%string; "OriginKind"%string] [] (TVariant [(Variant "Native"%string [] 0%N []); (Variant "SovereignAccount"%string [] 1%N []); (Variant "Superuser"%string [] 2%N []); (Variant "Xcm"%string [] 3%N [])]) []).
Definition t66 : ty := (Ty ["xcm"%string; "double_encoded"%string; "DoubleEncoded"%string] [("T"%string,None)] (TComposite [(Field (Some "encoded"%string) 10%N (Some "Vec<u8>"%string) [])]) []).
Definition t67 : ty := (Ty ["xcm"%string; "v1"%string; "multiasset"%string; "MultiAssetFilter"%string] [] (TVariant [(Variant "Definite"%string [(Field None 54%N (Some "MultiAssets"%string) [])] 0%N []); (Variant "Wild"%string [(Field None 68%N (Some "WildMultiAsset"%string) [])] 1%N [])]) []).
Definition t68 : ty := (Ty ["xcm"%string; "v1"%string; "multiasset"%string; "WildMultiAsset"%string] [] (TVariant [(Variant "All"%string [] 0%N []); (Variant "AllOf"%string [(Field (Some "id"%string) 57%N (Some "AssetId"%string) []); (Field (Some "fun"%string) 69%N (Some "WildFungibility"%string) [])] 1%N [])]) []).
Definition t69 : ty := (Ty ["xcm"%string; "v1"%string; "multiasset"%string; "WildFungibility"%string] [] (TVariant [(Variant "Fungible"%string [] 0%N []); (Variant "NonFungible"%string [] 1%N [])]) []).
Definition t70 : ty := (Ty ["xcm"%string; "v2"%string; "WeightLimit"%string] [] (TVariant [(Variant "Unlimited"%string [] 0%N []); (Variant "Limited"%string [(Field None 46%N (Some "u64"%string) [])] 1%N [])]) []).
Definition t71 : ty := (Ty ["Option"%string] [("T"%string,(Some 40%N))] (TVariant [(Variant "None"%string [] 0%N []); (Variant "Some"%string [(Field None 40%N None [])] 1%N [])]) []).
Definition t72 : ty := (Ty ["xcm"%string; "VersionedMultiAssets"%string] [] (TVariant [(Variant "V0"%string [(Field None 73%N (Some "Vec<v0::MultiAsset>"%string) [])] 0%N []); (Variant "V1"%string [(Field None 54%N (Some "v1::MultiAssets"%string) [])] 1%N [])]) []).
Definition t73 : ty := (Ty [] [] (TSequence 74%N) []).
Definition t74 : ty := (Ty ["xcm"%string; "v0"%string; "multi_asset"%string; "MultiAsset"%string] [] (TVariant [(Variant "None"%string [] 0%N []); (Variant "All"%string [] 1%N []); (Variant "AllFungible"%string [] 2%N []); (Variant "AllNonFungible"%string [] 3%N []); (Variant "AllAbstractFungible"%string [(Field (Some "id"%string) 10%N (Some "Vec<u8>"%string) [])] 4%N []); (Variant "AllAbstractNonFungible"%string [(Field (Some "class"%string) 10%N (Some "Vec<u8>"%string) [])] 5%N []); (Variant "AllConcreteFungible"%string [(Field (Some "id"%string) 75%N (Some "MultiLocation"%string) [])] 6%N []); (Variant "AllConcreteNonFungible"%string [(Field (Some "class"%string) 75%N (Some "MultiLocation"%string) [])] 7%N []); (Variant "AbstractFungible"%string [(Field (Some "id"%string) 10%N (Some "Vec<u8>"%string) []); (Field (Some "amount"%string) 48%N (Some "u128"%string) [])] 8%N []); (Variant "AbstractNonFungible"%string [(Field (Some "class"%string) 10%N (Some "Vec<u8>"%string) []); (Field (Some "instance"%string) 59%N (Some "AssetInstance"%string) [])] 9%N []); (Variant "ConcreteFungible"%string [(Field (Some "id"%string) 75%N (Some "MultiLocation"%string) []); (Field (Some "amount"%string) 48%N (Some "u128"%string) [])] 10%N []); (Variant "ConcreteNonFungible"%string [(Field (Some "class"%string) 75%N (Some "MultiLocation"%string) []); (Field (Some "instance"%string) 59%N (Some "AssetInstance"%string) [])] 11%N [])]) []).
Definition t75 : ty := (Ty ["xcm"%string; "v0"%string; "multi_location"%string; "MultiLocation"%string] [] (TVariant [(Variant "Null"%string [] 0%N []); (Variant "X1"%string [(Field None 76%N (Some "Junction"%string) [])] 1%N []); (Variant "X2"%string [(Field None 76%N (Some "Junction"%string) []); (Field None 76%N (Some "Junction"%string) [])] 2%N []); (Variant "X3"%string [(Field None 76%N (Some "Junction"%string) []); (Field None 76%N (Some "Junction"%string) []); (Field None 76%N (Some "Junction"%string) [])] 3%N []); (Variant "X4"%string [(Field None 76%N (Some "Junction"%string) []); (Field None 76%N (Some "Junction"%string) []); (Field None 76%N (Some "Junction"%string) []); (Field None 76%N (Some "Junction"%string) [])] 4%N []); (Variant "X5"%string [(Field None 76%N (Some "Junction"%string) []); (Field None 76%N (Some "Junction"%string) []); (Field None 76%N (Some "Junction"%string) []); (Field None 76%N (Some "Junction"%string) []); (Field None 76%N (Some "Junction"%string) [])] 5%N []); (Variant "X6"%string [(Field None 76%N (Some "Junction"%string) []); (Field None 76%N (Some "Junction"%string) []); (Field None 76%N (Some "Junction"%string) []); (Field None 76%N (Some "Junction"%string) []); (Field None 76%N (Some "Junction"%string) []); (Field None 76%N (Some "Junction"%string) [])] 6%N []); (Variant "X7"%string [(Field None 76%N (Some "Junction"%string) []); (Field None 76%N (Some "Junction"%string) []); (Field None 76%N (Some "Junction"%string) []); (Field None 76%N (Some "Junction"%string) []); (Field None 76%N (Some "Junction"%string) []); (Field None 76%N (Some "Junction"%string) []); (Field None 76%N (Some "Junction"%string) [])] 7%N []); (Variant "X8"%string [(Field None 76%N (Some "Junction"%string) []); (Field None 76%N (Some "Junction"%string) []); (Field None 76%N (Some "Junction"%string) []); (Field None 76%N (Some "Junction"%string) []); (Field None 76%N (Some "Junction"%string) []); (Field None 76%N (Some "Junction"%string) []); (Field None 76%N (Some "Junction"%string) []); (Field None 76%N (Some "Junction"%string) [])] 8%N [])]) []).
Definition t76 : ty := (Ty ["xcm"%string; "v0"%string; "junction"%string; "Junction"%string] [] (TVariant [(Variant "Parent"%string [] 0%N []); (Variant "Parachain"%string [(Field None 43%N (Some "u32"%string) [])] 1%N []); (Variant "AccountId32"%string [(Field (Some "network"%string) 44%N (Some "NetworkId"%string) []); (Field (Some "id"%string) 1%N (Some "[u8; 32]"%string) [])] 2%N []); (Variant "AccountIndex64"%string [(Field (Some "network"%string) 44%N (Some "NetworkId"%string) []); (Field (Some "index"%string) 46%N (Some "u64"%string) [])] 3%N []); (Variant "AccountKey20"%string [(Field (Some "network"%string) 44%N (Some "NetworkId"%string) []); (Field (Some "key"%string) 47%N (Some "[u8; 20]"%string) [])] 4%N []); (Variant "PalletInstance"%string [(Field None 2%N (Some "u8"%string) [])] 5%N []); (Variant "GeneralIndex"%string [(Field None 48%N (Some "u128"%string) [])] 6%N []); (Variant "GeneralKey"%string [(Field None 45%N (Some "WeakBoundedVec<u8, ConstU32<32>>"%string) [])] 7%N []); (Variant "OnlyChild"%string [] 8%N []); (Variant "Plurality"%string [(Field (Some "id"%string) 49%N (Some "BodyId"%string) []); (Field (Some "part"%string) 50%N (Some "BodyPart"%string) [])] 9%N [])]) []).
Definition t77 : ty := (Ty ["xcm"%string; "VersionedMultiLocation"%string] [] (TVariant [(Variant "V0"%string [(Field None 75%N (Some "v0::MultiLocation"%string) [])] 0%N []); (Variant "V1"%string [(Field None 40%N (Some "v1::MultiLocation"%string) [])] 1%N [])]) []).
Definition t78 : ty := (Ty ["cumulus_pallet_xcm"%string; "pallet"%string; "Event"%string] [("T"%string,None)] (TVariant [(Variant "InvalidFormat"%string [(Field None 60%N (Some "[u8; 8]"%string) [])] 0%N ["Downward message is invalid XCM."%string; "\[ id \]"%string]); (Variant "UnsupportedVersion"%string [(Field None 60%N (Some "[u8; 8]"%string) [])] 1%N ["Downward message is unsupported version of XCM."%string; "\[ id \]"%string]); (Variant "ExecutedDownward"%string [(Field None 60%N (Some "[u8; 8]"%string) []); (Field None 39%N (Some "Outcome"%string) [])] 2%N ["Downward message executed with the given outcome."%string; "\[ id, outcome \]"%string])]) ["
			The [event](https://docs.substrate.io/v3/runtime/events-and-errors) emitted
			by this pallet.
			"%string]).
Definition t79 : ty := (Ty ["cumulus_pallet_dmp_queue"%string; "pallet"%string; "Event"%string] [("T"%string,None)] (TVariant [(Variant "InvalidFormat"%string [(Field (Some "message_id"%string) 1%N (Some "MessageId"%string) [])] 0%N ["Downward message is invalid XCM."%string]); (Variant "UnsupportedVersion"%string [(Field (Some "message_id"%string) 1%N (Some "MessageId"%string) [])] 1%N ["Downward message is unsupported version of XCM."%string]); (Variant "ExecutedDownward"%string [(Field (Some "message_id"%string) 1%N (Some "MessageId"%string) []); (Field (Some "outcome"%string) 39%N (Some "Outcome"%string) [])] 2%N ["Downward message executed with the given outcome."%string]); (Variant "WeightExhausted"%string [(Field (Some "message_id"%string) 1%N (Some "MessageId"%string) []); (Field (Some "remaining_weight"%string) 8%N (Some "Weight"%string) []); (Field (Some "required_weight"%string) 8%N (Some "Weight"%string) [])] 3%N ["The weight limit for handling downward messages was reached."%string]); (Variant "OverweightEnqueued"%string [(Field (Some "message_id"%string) 1%N (Some "MessageId"%string) []); (Field (Some "overweight_index"%string) 8%N (Some "OverweightIndex"%string) []); (Field (Some "required_weight"%string) 8%N (Some "Weight"%string) [])] 4%N ["Downward message is overweight and was placed in the overweight queue."%string]); (Variant "OverweightServiced"%string [(Field (Some "overweight_index"%string) 8%N (Some "OverweightIndex"%string) []); (Field (Some "weight_used"%string) 8%N (Some "Weight"%string) [])] 5%N ["Downward message from the overweight queue was executed."%string])]) ["
			The [event](https://docs.substrate.io/v3/runtime/events-and-errors) emitted
			by this pallet.
			"%string]).
Definition t80 : ty := (Ty ["pallet_utility"%string; "pallet"%string; "Event"%string] [] (TVariant [(Variant "BatchInterrupted"%string [(Field (Some "index"%string) 4%N (Some "u32"%string) []); (Field (Some "error"%string) 22%N (Some "DispatchError"%string) [])] 0%N ["Batch of dispatches did not complete fully. Index of first failing dispatch given, as"%string; "well as the error."%string]); (Variant "BatchCompleted"%string [] 1%N ["Batch of dispatches completed fully with no error."%string]); (Variant "BatchCompletedWithErrors"%string [] 2%N ["Batch of dispatches completed but has errors."%string]); (Variant "ItemCompleted"%string [] 3%N ["A single item within a Batch of dispatches has completed with no error."%string]); (Variant "ItemFailed"%string [(Field (Some "error"%string) 22%N (Some "DispatchError"%string) [])] 4%N ["A single item within a Batch of dispatches has completed with error."%string]); (Variant "DispatchedAs"%string [(Field (Some "result"%string) 81%N (Some "DispatchResult"%string) [])] 5%N ["A call was dispatched."%string])]) ["
			The [event](https://docs.substrate.io/v3/runtime/events-and-errors) emitted
			by this pallet.
			"%string]).
Definition t81 : ty := (Ty ["Result"%string] [("T"%string,(Some 82%N)); ("E"%string,(Some 22%N))] (TVariant [(Variant "Ok"%string [(Field None 82%N None [])] 0%N []); (Variant "Err"%string [(Field None 22%N None [])] 1%N [])]) []).
Definition t82 : ty := (Ty [] [] (TTuple []) []).
Definition t83 : ty := (Ty ["pallet_multisig"%string; "pallet"%string; "Event"%string] [("T"%string,None)] (TVariant [(Variant "NewMultisig"%string [(Field (Some "approving"%string) 0%N (Some "T::AccountId"%string) []); (Field (Some "multisig"%string) 0%N (Some "T::AccountId"%string) []); (Field (Some "call_hash"%string) 1%N (Some "CallHash"%string) [])] 0%N ["A new multisig operation has begun."%string]); (Variant "MultisigApproval"%string [(Field (Some "approving"%string) 0%N (Some "T::AccountId"%string) []); (Field (Some "timepoint"%string) 84%N (Some "Timepoint<T::BlockNumber>"%string) []); (Field (Some "multisig"%string) 0%N (Some "T::AccountId"%string) []); (Field (Some "call_hash"%string) 1%N (Some "CallHash"%string) [])] 1%N ["A multisig operation has been approved by someone."%string]); (Variant "MultisigExecuted"%string [(Field (Some "approving"%string) 0%N (Some "T::AccountId"%string) []); (Field (Some "timepoint"%string) 84%N (Some "Timepoint<T::BlockNumber>"%string) []); (Field (Some "multisig"%string) 0%N (Some "T::AccountId"%string) []); (Field (Some "call_hash"%string) 1%N (Some "CallHash"%string) []); (Field (Some "result"%string) 81%N (Some "DispatchResult"%string) [])] 2%N ["A multisig operation has been executed."%string]); (Variant "MultisigCancelled"%string [(Field (Some "cancelling"%string) 0%N (Some "T::AccountId"%string) []); (Field (Some "timepoint"%string) 84%N (Some "Timepoint<T::BlockNumber>"%string) []); (Field (Some "multisig"%string) 0%N (Some "T::AccountId"%string) []); (Field (Some "call_hash"%string) 1%N (Some "CallHash"%string) [])] 3%N ["A multisig operation has been cancelled."%string])]) ["
			The [event](https://docs.substrate.io/v3/runtime/events-and-errors) emitted
			by this pallet.
			"%string]).
Definition t84 : ty := (Ty ["pallet_multisig"%string; "Timepoint"%string] [("BlockNumber"%string,(Some 4%N))] (TComposite [(Field (Some "height"%string) 4%N (Some "BlockNumber"%string) []); (Field (Some "index"%string) 4%N (Some "u32"%string) [])]) []).
Definition t85 : ty := (Ty ["pallet_proxy"%string; "pallet"%string; "Event"%string] [("T"%string,None)] (TVariant [(Variant "ProxyExecuted"%string [(Field (Some "result"%string) 81%N (Some "DispatchResult"%string) [])] 0%N ["A proxy was executed correctly, with the given."%string]); (Variant "AnonymousCreated"%string [(Field (Some "anonymous"%string) 0%N (Some "T::AccountId"%string) []); (Field (Some "who"%string) 0%N (Some "T::AccountId"%string) []); (Field (Some "proxy_type"%string) 86%N (Some "T::ProxyType"%string) []); (Field (Some "disambiguation_index"%string) 87%N (Some "u16"%string) [])] 1%N ["Anonymous account has been created by new proxy with given"%string; "disambiguation index and proxy type."%string]); (Variant "Announced"%string [(Field (Some "real"%string) 0%N (Some "T::AccountId"%string) []); (Field (Some "proxy"%string) 0%N (Some "T::AccountId"%string) []); (Field (Some "call_hash"%string) 9%N (Some "CallHashOf<T>"%string) [])] 2%N ["An announcement was placed to make a call in the future."%string]); (Variant "ProxyAdded"%string [(Field (Some "delegator"%string) 0%N (Some "T::AccountId"%string) []); (Field (Some "delegatee"%string) 0%N (Some "T::AccountId"%string) []); (Field (Some "proxy_type"%string) 86%N (Some "T::ProxyType"%string) []); (Field (Some "delay"%string) 4%N (Some "T::BlockNumber"%string) [])] 3%N ["A proxy was added."%string]); (Variant "ProxyRemoved"%string [(Field (Some "delegator"%string) 0%N (Some "T::AccountId"%string) []); (Field (Some "delegatee"%string) 0%N (Some "T::AccountId"%string) []); (Field (Some "proxy_type"%string) 86%N (Some "T::ProxyType"%string) []); (Field (Some "delay"%string) 4%N (Some "T::BlockNumber"%string) [])] 4%N ["A proxy was removed."%string])]) ["
			The [event](https://docs.substrate.io/v3/runtime/events-and-errors) emitted
			by this pallet.
			"%string]).
Definition t86 : ty := (Ty ["westmint_runtime"%string; "ProxyType"%string] [] (TVariant [(Variant "Any"%string [] 0%N []); (Variant "NonTransfer"%string [] 1%N []); (Variant "CancelProxy"%string [] 2%N []); (Variant "Assets"%string [] 3%N []); (Variant "AssetOwner"%string [] 4%N []); (Variant "AssetManager"%string [] 5%N []); (Variant "Collator"%string [] 6%N [])]) []).
Definition t87 : ty := (Ty [] [] (TPrimitive (PrU U16)) []).
Definition t88 : ty := (Ty ["pallet_assets"%string; "pallet"%string; "Event"%string] [("T"%string,None); ("I"%string,None)] (TVariant [(Variant "Created"%string [(Field (Some "asset_id"%string) 4%N (Some "T::AssetId"%string) []); (Field (Some "creator"%string) 0%N (Some "T::AccountId"%string) []); (Field (Some "owner"%string) 0%N (Some "T::AccountId"%string) [])] 0%N ["Some asset class was created."%string]); (Variant "Issued"%string [(Field (Some "asset_id"%string) 4%N (Some "T::AssetId"%string) []); (Field (Some "owner"%string) 0%N (Some "T::AccountId"%string) []); (Field (Some "total_supply"%string) 6%N (Some "T::Balance"%string) [])] 1%N ["Some assets were issued."%string]); (Variant "Transferred"%string [(Field (Some "asset_id"%string) 4%N (Some "T::AssetId"%string) []); (Field (Some "from"%string) 0%N (Some "T::AccountId"%string) []); (Field (Some "to"%string) 0%N (Some "T::AccountId"%string) []); (Field (Some "amount"%string) 6%N (Some "T::Balance"%string) [])] 2%N ["Some assets were transferred."%string]); (Variant "Burned"%string [(Field (Some "asset_id"%string) 4%N (Some "T::AssetId"%string) []); (Field (Some "owner"%string) 0%N (Some "T::AccountId"%string) []); (Field (Some "balance"%string) 6%N (Some "T::Balance"%string) [])] 3%N ["Some assets were destroyed."%string]); (Variant "TeamChanged"%string [(Field (Some "asset_id"%string) 4%N (Some "T::AssetId"%string) []); (Field (Some "issuer"%string) 0%N (Some "T::AccountId"%string) []); (Field (Some "admin"%string) 0%N (Some "T::AccountId"%string) []); (Field (Some "freezer"%string) 0%N (Some "T::AccountId"%string) [])] 4%N ["The management team changed."%string]); (Variant "OwnerChanged"%string [(Field (Some "asset_id"%string) 4%N (Some "T::AssetId"%string) []); (Field (Some "owner"%string) 0%N (Some "T::AccountId"%string) [])] 5%N ["The owner changed."%string]); (Variant "Frozen"%string [(Field (Some "asset_id"%string) 4%N (Some "T::AssetId"%string) []); (Field (Some "who"%string) 0%N (Some "T::AccountId"%string) [])] 6%N ["Some account `who` was frozen."%string]); (Variant "Thawed"%string [(Field (Some "asset_id"%string) 4%N (Some "T::AssetId"%string) []); (Field (Some "who"%string) 0%N (Some "T::AccountId"%string) [])] 7%N ["Some account `who` was thawed."%string]); (Variant "AssetFrozen"%string [(Field (Some "asset_id"%string) 4%N (Some "T::AssetId"%string) [])] 8%N ["Some asset `asset_id` was frozen."%string]); (Variant "AssetThawed"%string [(Field (Some "asset_id"%string) 4%N (Some "T::AssetId"%string) [])] 9%N ["Some asset `asset_id` was thawed."%string]); (Variant "Destroyed"%string [(Field (Some "asset_id"%string) 4%N (Some "T::AssetId"%string) [])] 10%N ["An asset class was destroyed."%string]); (Variant "ForceCreated"%string [(Field (Some "asset_id"%string) 4%N (Some "T::AssetId"%string) []); (Field (Some "owner"%string) 0%N (Some "T::AccountId"%string) [])] 11%N ["Some asset class was force-created."%string]); (Variant "MetadataSet"%string [(Field (Some "asset_id"%string) 4%N (Some "T::AssetId"%string) []); (Field (Some "name"%string) 10%N (Some "Vec<u8>"%string) []); (Field (Some "symbol"%string) 10%N (Some "Vec<u8>"%string) []); (Field (Some "decimals"%string) 2%N (Some "u8"%string) []); (Field (Some "is_frozen"%string) 89%N (Some "bool"%string) [])] 12%N ["New metadata has been set for an asset."%string]); (Variant "MetadataCleared"%string [(Field (Some "asset_id"%string) 4%N (Some "T::AssetId"%string) [])] 13%N ["Metadata has been cleared for an asset."%string]); (Variant "ApprovedTransfer"%string [(Field (Some "asset_id"%string) 4%N (Some "T::AssetId"%string) []); (Field (Some "source"%string) 0%N (Some "T::AccountId"%string) []); (Field (Some "delegate"%string) 0%N (Some "T::AccountId"%string) []); (Field (Some "amount"%string) 6%N (Some "T::Balance"%string) [])] 14%N ["(Additional) funds have been approved for transfer to a destination account."%string]); (Variant "ApprovalCancelled"%string [(Field (Some "asset_id"%string) 4%N (Some "T::AssetId"%string) []); (Field (Some "owner"%string) 0%N (Some "T::AccountId"%string) []); (Field (Some "delegate"%string) 0%N (Some "T::AccountId"%string) [])] 15%N ["An approval for account `delegate` was cancelled by `owner`."%string]); (Variant "TransferredApproved"%string [(Field (Some "asset_id"%string) 4%N (Some "T::AssetId"%string) []); (Field (Some "owner"%string) 0%N (Some "T::AccountId"%string) []); (Field (Some "delegate"%string) 0%N (Some "T::AccountId"%string) []); (Field (Some "destination"%string) 0%N (Some "T::AccountId"%string) []); (Field (Some "amount"%string) 6%N (Some "T::Balance"%string) [])] 16%N ["An `amount` was transferred in its entirety from `owner` to `destination` by"%string; "the approved `delegate`."%string]); (Variant "AssetStatusChanged"%string [(Field (Some "asset_id"%string) 4%N (Some "T::AssetId"%string) [])] 17%N ["An asset has had its attributes changed by the `Force` origin."%string])]) ["
			The [event](https://docs.substrate.io/v3/runtime/events-and-errors) emitted
			by this pallet.
			"%string]).
Definition t89 : ty := (Ty [] [] (TPrimitive PrBool) []).
Definition t90 : ty := (Ty ["pallet_uniques"%string; "pallet"%string; "Event"%string] [("T"%string,None); ("I"%string,None)] (TVariant [(Variant "Created"%string [(Field (Some "collection"%string) 4%N (Some "T::CollectionId"%string) []); (Field (Some "creator"%string) 0%N (Some "T::AccountId"%string) []); (Field (Some "owner"%string) 0%N (Some "T::AccountId"%string) [])] 0%N ["A `collection` was created."%string]); (Variant "ForceCreated"%string [(Field (Some "collection"%string) 4%N (Some "T::CollectionId"%string) []); (Field (Some "owner"%string) 0%N (Some "T::AccountId"%string) [])] 1%N ["A `collection` was force-created."%string]); (Variant "Destroyed"%string [(Field (Some "collection"%string) 4%N (Some "T::CollectionId"%string) [])] 2%N ["A `collection` was destroyed."%string]); (Variant "Issued"%string [(Field (Some "collection"%string) 4%N (Some "T::CollectionId"%string) []); (Field (Some "item"%string) 4%N (Some "T::ItemId"%string) []); (Field (Some "owner"%string) 0%N (Some "T::AccountId"%string) [])] 3%N ["An `item` was issued."%string]); (Variant "Transferred"%string [(Field (Some "collection"%string) 4%N (Some "T::CollectionId"%string) []); (Field (Some "item"%string) 4%N (Some "T::ItemId"%string) []); (Field (Some "from"%string) 0%N (Some "T::AccountId"%string) []); (Field (Some "to"%string) 0%N (Some "T::AccountId"%string) [])] 4%N ["An `item` was transferred."%string]); (Variant "Burned"%string [(Field (Some "collection"%string) 4%N (Some "T::CollectionId"%string) []); (Field (Some "item"%string) 4%N (Some "T::ItemId"%string) []); (Field (Some "owner"%string) 0%N (Some "T::AccountId"%string) [])] 5%N ["An `item` was destroyed."%string]); (Variant "Frozen"%string [(Field (Some "collection"%string) 4%N (Some "T::CollectionId"%string) []); (Field (Some "item"%string) 4%N (Some "T::ItemId"%string) [])] 6%N ["Some `item` was frozen."%string]); (Variant "Thawed"%string [(Field (Some "collection"%string) 4%N (Some "T::CollectionId"%string) []); (Field (Some "item"%string) 4%N (Some "T::ItemId"%string) [])] 7%N ["Some `item` was thawed."%string]); (Variant "CollectionFrozen"%string [(Field (Some "collection"%string) 4%N (Some "T::CollectionId"%string) [])] 8%N ["Some `collection` was frozen."%string]); (Variant "CollectionThawed"%string [(Field (Some "collection"%string) 4%N (Some "T::CollectionId"%string) [])] 9%N ["Some `collection` was thawed."%string]); (Variant "OwnerChanged"%string [(Field (Some "collection"%string) 4%N (Some "T::CollectionId"%string) []); (Field (Some "new_owner"%string) 0%N (Some "T::AccountId"%string) [])] 10%N ["The owner changed."%string]); (Variant "TeamChanged"%string [(Field (Some "collection"%string) 4%N (Some "T::CollectionId"%string) []); (Field (Some "issuer"%string) 0%N (Some "T::AccountId"%string) []); (Field (Some "admin"%string) 0%N (Some "T::AccountId"%string) []); (Field (Some "freezer"%string) 0%N (Some "T::AccountId"%string) [])] 11%N ["The management team changed."%string]); (Variant "ApprovedTransfer"%string [(Field (Some "collection"%string) 4%N (Some "T::CollectionId"%string) []); (Field (Some "item"%string) 4%N (Some "T::ItemId"%string) []); (Field (Some "owner"%string) 0%N (Some "T::AccountId"%string) []); (Field (Some "delegate"%string) 0%N (Some "T::AccountId"%string) [])] 12%N ["An `item` of a `collection` has been approved by the `owner` for transfer by"%string; "a `delegate`."%string]); (Variant "ApprovalCancelled"%string [(Field (Some "collection"%string) 4%N (Some "T::CollectionId"%string) []); (Field (Some "item"%string) 4%N (Some "T::ItemId"%string) []); (Field (Some "owner"%string) 0%N (Some "T::AccountId"%string) []); (Field (Some "delegate"%string) 0%N (Some "T::AccountId"%string) [])] 13%N ["An approval for a `delegate` account to transfer the `item` of an item"%string; "`collection` was cancelled by its `owner`."%string]); (Variant "ItemStatusChanged"%string [(Field (Some "collection"%string) 4%N (Some "T::CollectionId"%string) [])] 14%N ["A `collection` has had its attributes changed by the `Force` origin."%string]); (Variant "CollectionMetadataSet"%string [(Field (Some "collection"%string) 4%N (Some "T::CollectionId"%string) []); (Field (Some "data"%string) 91%N (Some "BoundedVec<u8, T::StringLimit>"%string) []); (Field (Some "is_frozen"%string) 89%N (Some "bool"%string) [])] 15%N ["New metadata has been set for a `collection`."%string]); (Variant "CollectionMetadataCleared"%string [(Field (Some "collection"%string) 4%N (Some "T::CollectionId"%string) [])] 16%N ["Metadata has been cleared for a `collection`."%string]); (Variant "MetadataSet"%string [(Field (Some "collection"%string) 4%N (Some "T::CollectionId"%string) []); (Field (Some "item"%string) 4%N (Some "T::ItemId"%string) []); (Field (Some "data"%string) 91%N (Some "BoundedVec<u8, T::StringLimit>"%string) []); (Field (Some "is_frozen"%string) 89%N (Some "bool"%string) [])] 17%N ["New metadata has been set for an item."%string]); (Variant "MetadataCleared"%string [(Field (Some "collection"%string) 4%N (Some "T::CollectionId"%string) []); (Field (Some "item"%string) 4%N (Some "T::ItemId"%string) [])] 18%N ["Metadata has been cleared for an item."%string]); (Variant "Redeposited"%string [(Field (Some "collection"%string) 4%N (Some "T::CollectionId"%string) []); (Field (Some "successful_items"%string) 92%N (Some "Vec<T::ItemId>"%string) [])] 19%N ["Metadata has been cleared for an item."%string]); (Variant "AttributeSet"%string [(Field (Some "collection"%string) 4%N (Some "T::CollectionId"%string) []); (Field (Some "maybe_item"%string) 93%N (Some "Option<T::ItemId>"%string) []); (Field (Some "key"%string) 94%N (Some "BoundedVec<u8, T::KeyLimit>"%string) []); (Field (Some "value"%string) 95%N (Some "BoundedVec<u8, T::ValueLimit>"%string) [])] 20%N ["New attribute metadata has been set for a `collection` or `item`."%string]); (Variant "AttributeCleared"%string [(Field (Some "collection"%string) 4%N (Some "T::CollectionId"%string) []); (Field (Some "maybe_item"%string) 93%N (Some "Option<T::ItemId>"%string) []); (Field (Some "key"%string) 94%N (Some "BoundedVec<u8, T::KeyLimit>"%string) [])] 21%N ["Attribute metadata has been cleared for a `collection` or `item`."%string]); (Variant "OwnershipAcceptanceChanged"%string [(Field (Some "who"%string) 0%N (Some "T::AccountId"%string) []); (Field (Some "maybe_collection"%string) 93%N (Some "Option<T::CollectionId>"%string) [])] 22%N ["Ownership acceptance has changed for an account."%string]); (Variant "CollectionMaxSupplySet"%string [(Field (Some "collection"%string) 4%N (Some "T::CollectionId"%string) []); (Field (Some "max_supply"%string) 4%N (Some "u32"%string) [])] 23%N ["Max supply has been set for a collection."%string]); (Variant "ItemPriceSet"%string [(Field (Some "collection"%string) 4%N (Some "T::CollectionId"%string) []); (Field (Some "item"%string) 4%N (Some "T::ItemId"%string) []); (Field (Some "price"%string) 6%N (Some "ItemPrice<T, I>"%string) []); (Field (Some "whitelisted_buyer"%string) 96%N (Some "Option<T::AccountId>"%string) [])] 24%N ["The price was set for the instance."%string]); (Variant "ItemPriceRemoved"%string [(Field (Some "collection"%string) 4%N (Some "T::CollectionId"%string) []); (Field (Some "item"%string) 4%N (Some "T::ItemId"%string) [])] 25%N ["The price for the instance was removed."%string]); (Variant "ItemBought"%string [(Field (Some "collection"%string) 4%N (Some "T::CollectionId"%string) []); (Field (Some "item"%string) 4%N (Some "T::ItemId"%string) []); (Field (Some "price"%string) 6%N (Some "ItemPrice<T, I>"%string) []); (Field (Some "seller"%string) 0%N (Some "T::AccountId"%string) []); (Field (Some "buyer"%string) 0%N (Some "T::AccountId"%string) [])] 26%N ["An item was bought."%string])]) ["
			The [event](https://docs.substrate.io/v3/runtime/events-and-errors) emitted
			by this pallet.
			"%string]).
Definition t91 : ty := (Ty ["sp_runtime"%string; "bounded"%string; "bounded_vec"%string; "BoundedVec"%string] [("T"%string,(Some 2%N)); ("S"%string,None)] (TComposite [(Field None 10%N (Some "Vec<T>"%string) [])]) []).
Definition t92 : ty := (Ty [] [] (TSequence 4%N) []).
Definition t93 : ty := (Ty ["Option"%string] [("T"%string,(Some 4%N))] (TVariant [(Variant "None"%string [] 0%N []); (Variant "Some"%string [(Field None 4%N None [])] 1%N [])]) []).
Definition t94 : ty := (Ty ["sp_runtime"%string; "bounded"%string; "bounded_vec"%string; "BoundedVec"%string] [("T"%string,(Some 2%N)); ("S"%string,None)] (TComposite [(Field None 10%N (Some "Vec<T>"%string) [])]) []).
Definition t95 : ty := (Ty ["sp_runtime"%string; "bounded"%string; "bounded_vec"%string; "BoundedVec"%string] [("T"%string,(Some 2%N)); ("S"%string,None)] (TComposite [(Field None 10%N (Some "Vec<T>"%string) [])]) []).
Definition t96 : ty := (Ty ["Option"%string] [("T"%string,(Some 0%N))] (TVariant [(Variant "None"%string [] 0%N []); (Variant "Some"%string [(Field None 0%N None [])] 1%N [])]) []).
Definition t97 : ty := (Ty ["frame_system"%string; "Phase"%string] [] (TVariant [(Variant "ApplyExtrinsic"%string [(Field None 4%N (Some "u32"%string) [])] 0%N []); (Variant "Finalization"%string [] 1%N []); (Variant "Initialization"%string [] 2%N [])]) []).
Definition t98 : ty := (Ty [] [] (TSequence 9%N) []).
Definition t99 : ty := (Ty [] [] (TSequence 100%N) []).
Definition t100 : ty := (Ty [] [] (TTuple [4%N; 4%N]) []).
Definition t101 : ty := (Ty ["frame_system"%string; "LastRuntimeUpgradeInfo"%string] [] (TComposite [(Field (Some "spec_version"%string) 43%N (Some "codec::Compact<u32>"%string) []); (Field (Some "spec_name"%string) 102%N (Some "sp_runtime::RuntimeString"%string) [])]) []).
Definition t102 : ty := (Ty [] [] (TPrimitive PrStr) []).
Definition t103 : ty := (Ty ["frame_system"%string; "pallet"%string; "Call"%string] [("T"%string,None)] (TVariant [(Variant "fill_block"%string [(Field (Some "ratio"%string) 104%N (Some "Perbill"%string) [])] 0%N ["A dispatch that will fill the block weight up to the given ratio."%string]); (Variant "remark"%string [(Field (Some "remark"%string) 10%N (Some "Vec<u8>"%string) [])] 1%N ["Make some on-chain remark."%string; ""%string; "# <weight>"%string; "- `O(1)`"%string; "# </weight>"%string]); (Variant "set_heap_pages"%string [(Field (Some "pages"%string) 8%N (Some "u64"%string) [])] 2%N ["Set the number of pages in the WebAssembly environment's heap."%string]); (Variant "set_code"%string [(Field (Some "code"%string) 10%N (Some "Vec<u8>"%string) [])] 3%N ["Set the new runtime code."%string; ""%string; "# <weight>"%string; "- `O(C + S)` where `C` length of `code` and `S` complexity of `can_set_code`"%string; "- 1 call to `can_set_code`: `O(S)` (calls `sp_io::misc::runtime_version` which is"%string; "  expensive)."%string; "- 1 storage write (codec `O(C)`)."%string; "- 1 digest item."%string; "- 1 event."%string; "The weight of this function is dependent on the runtime, but generally this is very"%string; "expensive. We will treat this as a full block."%string; "# </weight>"%string]); (Variant "set_code_without_checks"%string [(Field (Some "code"%string) 10%N (Some "Vec<u8>"%string) [])] 4%N ["Set the new runtime code without doing any checks of the given `code`."%string; ""%string; "# <weight>"%string; "- `O(C)` where `C` length of `code`"%string; "- 1 storage write (codec `O(C)`)."%string; "- 1 digest item."%string; "- 1 event."%string; "The weight of this function is dependent on the runtime. We will treat this as a full"%string; "block. # </weight>"%string]); (Variant "set_storage"%string [(Field (Some "items"%string) 105%N (Some "Vec<KeyValue>"%string) [])] 5%N ["Set some items of storage."%string]); (Variant "kill_storage"%string [(Field (Some "keys"%string) 107%N (Some "Vec<Key>"%string) [])] 6%N ["Kill some items from storage."%string]); (Variant "kill_prefix"%string [(Field (Some "prefix"%string) 10%N (Some "Key"%string) []); (Field (Some "subkeys"%string) 4%N (Some "u32"%string) [])] 7%N ["Kill all storage items with a key that starts with the given prefix."%string; ""%string; "**NOTE:** We rely on the Root origin to provide us the number of subkeys under"%string; "the prefix we are removing to accurately calculate the weight of this function."%string]); (Variant "remark_with_event"%string [(Field (Some "remark"%string) 10%N (Some "Vec<u8>"%string) [])] 8%N ["Make some on-chain remark and emit event."%string])]) ["Contains one variant per dispatchable that can be called by an extrinsic."%string]).
Definition t104 : ty := (Ty ["sp_arithmetic"%string; "per_things"%string; "Perbill"%string] [] (TComposite [(Field None 4%N (Some "u32"%string) [])]) []).
Definition t105 : ty := (Ty [] [] (TSequence 106%N) []).
Definition t106 : ty := (Ty [] [] (TTuple [10%N; 10%N]) []).
Definition t107 : ty := (Ty [] [] (TSequence 10%N) []).
Definition t108 : ty := (Ty ["frame_system"%string; "limits"%string; "BlockWeights"%string] [] (TComposite [(Field (Some "base_block"%string) 8%N (Some "Weight"%string) []); (Field (Some "max_block"%string) 8%N (Some "Weight"%string) []); (Field (Some "per_class"%string) 109%N (Some "PerDispatchClass<WeightsPerClass>"%string) [])]) []).
Definition t109 : ty := (Ty ["frame_support"%string; "weights"%string; "PerDispatchClass"%string] [("T"%string,(Some 110%N))] (TComposite [(Field (Some "normal"%string) 110%N (Some "T"%string) []); (Field (Some "operational"%string) 110%N (Some "T"%string) []); (Field (Some "mandatory"%string) 110%N (Some "T"%string) [])]) []).
Definition t110 : ty := (Ty ["frame_system"%string; "limits"%string; "WeightsPerClass"%string] [] (TComposite [(Field (Some "base_extrinsic"%string) 8%N (Some "Weight"%string) []); (Field (Some "max_extrinsic"%string) 111%N (Some "Option<Weight>"%string) []); (Field (Some "max_total"%string) 111%N (Some "Option<Weight>"%string) []); (Field (Some "reserved"%string) 111%N (Some "Option<Weight>"%string) [])]) []).
Definition t111 : ty := (Ty ["Option"%string] [("T"%string,(Some 8%N))] (TVariant [(Variant "None"%string [] 0%N []); (Variant "Some"%string [(Field None 8%N None [])] 1%N [])]) []).
Definition t112 : ty := (Ty ["frame_system"%string; "limits"%string; "BlockLength"%string] [] (TComposite [(Field (Some "max"%string) 113%N (Some "PerDispatchClass<u32>"%string) [])]) []).
Definition t113 : ty := (Ty ["frame_support"%string; "weights"%string; "PerDispatchClass"%string] [("T"%string,(Some 4%N))] (TComposite [(Field (Some "normal"%string) 4%N (Some "T"%string) []); (Field (Some "operational"%string) 4%N (Some "T"%string) []); (Field (Some "mandatory"%string) 4%N (Some "T"%string) [])]) []).
Definition t114 : ty := (Ty ["frame_support"%string; "weights"%string; "RuntimeDbWeight"%string] [] (TComposite [(Field (Some "read"%string) 8%N (Some "Weight"%string) []); (Field (Some "write"%string) 8%N (Some "Weight"%string) [])]) []).
Definition t115 : ty := (Ty ["sp_version"%string; "RuntimeVersion"%string] [] (TComposite [(Field (Some "spec_name"%string) 102%N (Some "RuntimeString"%string) []); (Field (Some "impl_name"%string) 102%N (Some "RuntimeString"%string) []); (Field (Some "authoring_version"%string) 4%N (Some "u32"%string) []); (Field (Some "spec_version"%string) 4%N (Some "u32"%string) []); (Field (Some "impl_version"%string) 4%N (Some "u32"%string) []); (Field (Some "apis"%string) 116%N (Some "ApisVec"%string) []); (Field (Some "transaction_version"%string) 4%N (Some "u32"%string) []); (Field (Some "state_version"%string) 2%N (Some "u8"%string) [])]) []).
Definition t116 : ty := (Ty ["Cow"%string] [("T"%string,(Some 117%N))] (TComposite [(Field None 117%N None [])]) []).
Definition t117 : ty := (Ty [] [] (TSequence 118%N) []).
Definition t118 : ty := (Ty [] [] (TTuple [60%N; 4%N]) []).
Definition t119 : ty := (Ty ["frame_system"%string; "pallet"%string; "Error"%string] [("T"%string,None)] (TVariant [(Variant "InvalidSpecName"%string [] 0%N ["The name of specification does not match between the current runtime"%string; "and the new runtime."%string]); (Variant "SpecVersionNeedsToIncrease"%string [] 1%N ["The specification version is not allowed to decrease between the current runtime"%string; "and the new runtime."%string]); (Variant "FailedToExtractRuntimeVersion"%string [] 2%N ["Failed to extract the runtime version from the new runtime."%string; ""%string; "Either calling `Core_version` or decoding `RuntimeVersion` failed."%string]); (Variant "NonDefaultComposite"%string [] 3%N ["Suicide called when the account has non-default composite data."%string]); (Variant "NonZeroRefCount"%string [] 4%N ["There is a non-zero reference count preventing the account from being purged."%string]); (Variant "CallFiltered"%string [] 5%N ["The origin filter prevent the call to be dispatched."%string])]) ["Error for the System pallet"%string]).
Definition t120 : ty := (Ty ["polkadot_primitives"%string; "v2"%string; "PersistedValidationData"%string] [("H"%string,(Some 9%N)); ("N"%string,(Some 4%N))] (TComposite [(Field (Some "parent_head"%string) 121%N (Some "HeadData"%string) []); (Field (Some "relay_parent_number"%string) 4%N (Some "N"%string) []); (Field (Some "relay_parent_storage_root"%string) 9%N (Some "H"%string) []); (Field (Some "max_pov_size"%string) 4%N (Some "u32"%string) [])]) []).
Definition t121 : ty := (Ty ["polkadot_parachain"%string; "primitives"%string; "HeadData"%string] [] (TComposite [(Field None 10%N (Some "Vec<u8>"%string) [])]) []).
Definition t122 : ty := (Ty ["Option"%string] [("T"%string,(Some 123%N))] (TVariant [(Variant "None"%string [] 0%N []); (Variant "Some"%string [(Field None 123%N None [])] 1%N [])]) []).
Definition t123 : ty := (Ty ["polkadot_primitives"%string; "v2"%string; "UpgradeRestriction"%string] [] (TVariant [(Variant "Present"%string [] 0%N [])]) []).
Definition t124 : ty := (Ty ["sp_trie"%string; "storage_proof"%string; "StorageProof"%string] [] (TComposite [(Field (Some "trie_nodes"%string) 125%N (Some "BTreeSet<Vec<u8>>"%string) [])]) []).
Definition t125 : ty := (Ty ["BTreeSet"%string] [("T"%string,(Some 10%N))] (TComposite [(Field None 107%N None [])]) []).
Definition t126 : ty := (Ty ["cumulus_pallet_parachain_system"%string; "relay_state_snapshot"%string; "MessagingStateSnapshot"%string] [] (TComposite [(Field (Some "dmq_mqc_head"%string) 9%N (Some "relay_chain::Hash"%string) []); (Field (Some "relay_dispatch_queue_size"%string) 100%N (Some "(u32, u32)"%string) []); (Field (Some "ingress_channels"%string) 127%N (Some "Vec<(ParaId, AbridgedHrmpChannel)>"%string) []); (Field (Some "egress_channels"%string) 127%N (Some "Vec<(ParaId, AbridgedHrmpChannel)>"%string) [])]) []).
Definition t127 : ty := (Ty [] [] (TSequence 128%N) []).
Definition t128 : ty := (Ty [] [] (TTuple [37%N; 129%N]) []).
Definition t129 : ty := (Ty ["polkadot_primitives"%string; "v2"%string; "AbridgedHrmpChannel"%string] [] (TComposite [(Field (Some "max_capacity"%string) 4%N (Some "u32"%string) []); (Field (Some "max_total_size"%string) 4%N (Some "u32"%string) []); (Field (Some "max_message_size"%string) 4%N (Some "u32"%string) []); (Field (Some "msg_count"%string) 4%N (Some "u32"%string) []); (Field (Some "total_size"%string) 4%N (Some "u32"%string) []); (Field (Some "mqc_head"%string) 35%N (Some "Option<Hash>"%string) [])]) []).
Definition t130 : ty := (Ty ["polkadot_primitives"%string; "v2"%string; "AbridgedHostConfiguration"%string] [] (TComposite [(Field (Some "max_code_size"%string) 4%N (Some "u32"%string) []); (Field (Some "max_head_data_size"%string) 4%N (Some "u32"%string) []); (Field (Some "max_upward_queue_count"%string) 4%N (Some "u32"%string) []); (Field (Some "max_upward_queue_size"%string) 4%N (Some "u32"%string) []); (Field (Some "max_upward_message_size"%string) 4%N (Some "u32"%string) []); (Field (Some "max_upward_message_num_per_candidate"%string) 4%N (Some "u32"%string) []); (Field (Some "hrmp_max_message_num_per_candidate"%string) 4%N (Some "u32"%string) []); (Field (Some "validation_upgrade_cooldown"%string) 4%N (Some "BlockNumber"%string) []); (Field (Some "validation_upgrade_delay"%string) 4%N (Some "BlockNumber"%string) [])]) []).
Definition t131 : ty := (Ty ["cumulus_primitives_parachain_inherent"%string; "MessageQueueChain"%string] [] (TComposite [(Field None 9%N (Some "RelayHash"%string) [])]) []).
Definition t132 : ty := (Ty ["BTreeMap"%string] [("K"%string,(Some 37%N)); ("V"%string,(Some 131%N))] (TComposite [(Field None 133%N None [])]) []).
Definition t133 : ty := (Ty [] [] (TSequence 134%N) []).
Definition t134 : ty := (Ty [] [] (TTuple [37%N; 131%N]) []).
Definition t135 : ty := (Ty [] [] (TSequence 136%N) []).
Definition t136 : ty := (Ty ["polkadot_core_primitives"%string; "OutboundHrmpMessage"%string] [("Id"%string,(Some 37%N))] (TComposite [(Field (Some "recipient"%string) 37%N (Some "Id"%string) []); (Field (Some "data"%string) 10%N (Some "sp_std::vec::Vec<u8>"%string) [])]) []).
Definition t137 : ty := (Ty ["cumulus_pallet_parachain_system"%string; "pallet"%string; "Call"%string] [("T"%string,None)] (TVariant [(Variant "set_validation_data"%string [(Field (Some "data"%string) 138%N (Some "ParachainInherentData"%string) [])] 0%N ["Set the current validation data."%string; ""%string; "This should be invoked exactly once per block. It will panic at the finalization"%string; "phase if the call was not invoked."%string; ""%string; "The dispatch origin for this call must be `Inherent`"%string; ""%string; "As a side effect, this function upgrades the current validation function"%string; "if the appropriate time has come."%string]); (Variant "sudo_send_upward_message"%string [(Field (Some "message"%string) 10%N (Some "UpwardMessage"%string) [])] 1%N []); (Variant "authorize_upgrade"%string [(Field (Some "code_hash"%string) 9%N (Some "T::Hash"%string) [])] 2%N []); (Variant "enact_authorized_upgrade"%string [(Field (Some "code"%string) 10%N (Some "Vec<u8>"%string) [])] 3%N [])]) ["Contains one variant per dispatchable that can be called by an extrinsic."%string]).
Definition t138 : ty := (Ty ["cumulus_primitives_parachain_inherent"%string; "ParachainInherentData"%string] [] (TComposite [(Field (Some "validation_data"%string) 120%N (Some "PersistedValidationData"%string) []); (Field (Some "relay_chain_state"%string) 124%N (Some "sp_trie::StorageProof"%string) []); (Field (Some "downward_messages"%string) 139%N (Some "Vec<InboundDownwardMessage>"%string) []); (Field (Some "horizontal_messages"%string) 141%N (Some "BTreeMap<ParaId, Vec<InboundHrmpMessage>>"%string) [])]) []).
Definition t139 : ty := (Ty [] [] (TSequence 140%N) []).
Definition t140 : ty := (Ty ["polkadot_core_primitives"%string; "InboundDownwardMessage"%string] [("BlockNumber"%string,(Some 4%N))] (TComposite [(Field (Some "sent_at"%string) 4%N (Some "BlockNumber"%string) []); (Field (Some "msg"%string) 10%N (Some "DownwardMessage"%string) [])]) []).
Definition t141 : ty := (Ty ["BTreeMap"%string] [("K"%string,(Some 37%N)); ("V"%string,(Some 142%N))] (TComposite [(Field None 144%N None [])]) []).
Definition t142 : ty := (Ty [] [] (TSequence 143%N) []).
Definition t143 : ty := (Ty ["polkadot_core_primitives"%string; "InboundHrmpMessage"%string] [("BlockNumber"%string,(Some 4%N))] (TComposite [(Field (Some "sent_at"%string) 4%N (Some "BlockNumber"%string) []); (Field (Some "data"%string) 10%N (Some "sp_std::vec::Vec<u8>"%string) [])]) []).
Definition t144 : ty := (Ty [] [] (TSequence 145%N) []).
Definition t145 : ty := (Ty [] [] (TTuple [37%N; 142%N]) []).
Definition t146 : ty := (Ty ["cumulus_pallet_parachain_system"%string; "pallet"%string; "Error"%string] [("T"%string,None)] (TVariant [(Variant "OverlappingUpgrades"%string [] 0%N ["Attempt to upgrade validation function while existing upgrade pending"%string]); (Variant "ProhibitedByPolkadot"%string [] 1%N ["Polkadot currently prohibits this parachain from upgrading its validation function"%string]); (Variant "TooBig"%string [] 2%N ["The supplied validation function has compiled into a blob larger than Polkadot is"%string; "willing to run"%string]); (Variant "ValidationDataNotAvailable"%string [] 3%N ["The inherent which supplies the validation data did not run this block"%string]); (Variant "HostConfigurationNotAvailable"%string [] 4%N ["The inherent which supplies the host configuration did not run this block"%string]); (Variant "NotScheduled"%string [] 5%N ["No validation function upgrade is currently scheduled."%string]); (Variant "NothingAuthorized"%string [] 6%N ["No code upgrade has been authorized."%string]); (Variant "Unauthorized"%string [] 7%N ["The given code upgrade has not been authorized."%string])]) ["
			Custom [dispatch errors](https://docs.substrate.io/v3/runtime/events-and-errors)
			of this pallet.
			"%string]).
Definition t147 : ty := (Ty ["pallet_timestamp"%string; "pallet"%string; "Call"%string] [("T"%string,None)] (TVariant [(Variant "set"%string [(Field (Some "now"%string) 46%N (Some "T::Moment"%string) [])] 0%N ["Set the current time."%string; ""%string; "This call should be invoked exactly once per block. It will panic at the finalization"%string; "phase, if this call hasn't been invoked by that time."%string; ""%string; "The timestamp should be greater than the previous one by the amount specified by"%string; "`MinimumPeriod`."%string; ""%string; "The dispatch origin for this call must be `Inherent`."%string; ""%string; "# <weight>"%string; "- `O(1)` (Note that implementations of `OnTimestampSet` must also be `O(1)`)"%string; "- 1 storage read and 1 storage mutation (codec `O(1)`). (because of `DidUpdate::take` in"%string; "  `on_finalize`)"%string; "- 1 event handler `on_timestamp_set`. Must be `O(1)`."%string; "# </weight>"%string])]) ["Contains one variant per dispatchable that can be called by an extrinsic."%string]).
Definition t148 : ty := (Ty ["sp_runtime"%string; "bounded"%string; "weak_bounded_vec"%string; "WeakBoundedVec"%string] [("T"%string,(Some 149%N)); ("S"%string,None)] (TComposite [(Field None 151%N (Some "Vec<T>"%string) [])]) []).
Definition t149 : ty := (Ty ["pallet_balances"%string; "BalanceLock"%string] [("Balance"%string,(Some 6%N))] (TComposite [(Field (Some "id"%string) 60%N (Some "LockIdentifier"%string) []); (Field (Some "amount"%string) 6%N (Some "Balance"%string) []); (Field (Some "reasons"%string) 150%N (Some "Reasons"%string) [])]) []).
Definition t150 : ty := (Ty ["pallet_balances"%string; "Reasons"%string] [] (TVariant [(Variant "Fee"%string [] 0%N []); (Variant "Misc"%string [] 1%N []); (Variant "All"%string [] 2%N [])]) []).
Definition t151 : ty := (Ty [] [] (TSequence 149%N) []).
Definition t152 : ty := (Ty ["sp_runtime"%string; "bounded"%string; "bounded_vec"%string; "BoundedVec"%string] [("T"%string,(Some 153%N)); ("S"%string,None)] (TComposite [(Field None 154%N (Some "Vec<T>"%string) [])]) []).
Definition t153 : ty := (Ty ["pallet_balances"%string; "ReserveData"%string] [("ReserveIdentifier"%string,(Some 60%N)); ("Balance"%string,(Some 6%N))] (TComposite [(Field (Some "id"%string) 60%N (Some "ReserveIdentifier"%string) []); (Field (Some "amount"%string) 6%N (Some "Balance"%string) [])]) []).
Definition t154 : ty := (Ty [] [] (TSequence 153%N) []).
Definition t155 : ty := (Ty ["pallet_balances"%string; "Releases"%string] [] (TVariant [(Variant "V1_0_0"%string [] 0%N []); (Variant "V2_0_0"%string [] 1%N [])]) []).
Definition t156 : ty := (Ty ["pallet_balances"%string; "pallet"%string; "Call"%string] [("T"%string,None); ("I"%string,None)] (TVariant [(Variant "transfer"%string [(Field (Some "dest"%string) 157%N (Some "<T::Lookup as StaticLookup>::Source"%string) []); (Field (Some "value"%string) 48%N (Some "T::Balance"%string) [])] 0%N ["Transfer some liquid free balance to another account."%string; ""%string; "`transfer` will set the `FreeBalance` of the sender and receiver."%string; "If the sender's account is below the existential deposit as a result"%string; "of the transfer, the account will be reaped."%string; ""%string; "The dispatch origin for this call must be `Signed` by the transactor."%string; ""%string; "# <weight>"%string; "- Dependent on arguments but not critical, given proper implementations for input config"%string; "  types. See related functions below."%string; "- It contains a limited number of reads and writes internally and no complex"%string; "  computation."%string; ""%string; "Related functions:"%string; ""%string; "  - `ensure_can_withdraw` is always called internally but has a bounded complexity."%string; "  - Transferring balances to accounts that did not exist before will cause"%string; "    `T::OnNewAccount::on_new_account` to be called."%string; "  - Removing enough funds from an account will trigger `T::DustRemoval::on_unbalanced`."%string; "  - `transfer_keep_alive` works the same way as `transfer`, but has an additional check"%string; "    that the transfer will not kill the origin account."%string; "---------------------------------"%string; "- Origin account is already in memory, so no DB operations for them."%string; "# </weight>"%string]); (Variant "set_balance"%string [(Field (Some "who"%string) 157%N (Some "<T::Lookup as StaticLookup>::Source"%string) []); (Field (Some "new_free"%string) 48%N (Some "T::Balance"%string) []); (Field (Some "new_reserved"%string) 48%N (Some "T::Balance"%string) [])] 1%N ["Set the balances of a given account."%string; ""%string; "This will alter `FreeBalance` and `ReservedBalance` in storage. it will"%string; "also alter the total issuance of the system (`TotalIssuance`) appropriately."%string; "If the new free or reserved balance is below the existential deposit,"%string; "it will reset the account nonce (`frame_system::AccountNonce`)."%string; ""%string; "The dispatch origin for this call is `root`."%string]); (Variant "force_transfer"%string [(Field (Some "source"%string) 157%N (Some "<T::Lookup as StaticLookup>::Source"%string) []); (Field (Some "dest"%string) 157%N (Some "<T::Lookup as StaticLookup>::Source"%string) []); (Field (Some "value"%string) 48%N (Some "T::Balance"%string) [])] 2%N ["Exactly as `transfer`, except the origin must be root and the source account may be"%string; "specified."%string; "# <weight>"%string; "- Same as transfer, but additional read and write because the source account is not"%string; "  assumed to be in the overlay."%string; "# </weight>"%string]); (Variant "transfer_keep_alive"%string [(Field (Some "dest"%string) 157%N (Some "<T::Lookup as StaticLookup>::Source"%string) []); (Field (Some "value"%string) 48%N (Some "T::Balance"%string) [])] 3%N ["Same as the [`transfer`] call, but with a check that the transfer will not kill the"%string; "origin account."%string; ""%string; "99% of the time you want [`transfer`] instead."%string; ""%string; "[`transfer`]: struct.Pallet.html#method.transfer"%string]); (Variant "transfer_all"%string [(Field (Some "dest"%string) 157%N (Some "<T::Lookup as StaticLookup>::Source"%string) []); (Field (Some "keep_alive"%string) 89%N (Some "bool"%string) [])] 4%N ["Transfer the entire transferable balance from the caller account."%string; ""%string; "NOTE: This function only attempts to transfer _transferable_ balances. This means that"%string; "any locked, reserved, or existential deposits (when `keep_alive` is `true`), will not be"%string; "transferred by this function. To ensure that this function results in a killed account,"%string; "you might need to prepare the account by removing any reference counters, storage"%string; "deposits, etc..."%string; ""%string; "The dispatch origin of this call must be Signed."%string; ""%string; "- `dest`: The recipient of the transfer."%string; "- `keep_alive`: A boolean to determine if the `transfer_all` operation should send all"%string; "  of the funds the account has, causing the sender account to be killed (false), or"%string; "  transfer everything except at least the existential deposit, which will guarantee to"%string; "  keep the sender account alive (true). # <weight>"%string; "- O(1). Just like transfer, but reading the user's transferable balance first."%string; "  #</weight>"%string]); (Variant "force_unreserve"%string [(Field (Some "who"%string) 157%N (Some "<T::Lookup as StaticLookup>::Source"%string) []); (Field (Some "amount"%string) 6%N (Some "T::Balance"%string) [])] 5%N ["Unreserve some balance from a user by force."%string; ""%string; "Can only be called by ROOT."%string])]) ["Contains one variant per dispatchable that can be called by an extrinsic."%string]).
Definition t157 : ty := (Ty ["sp_runtime"%string; "multiaddress"%string; "MultiAddress"%string] [("AccountId"%string,(Some 0%N)); ("AccountIndex"%string,(Some 82%N))] (TVariant [(Variant "Id"%string [(Field None 0%N (Some "AccountId"%string) [])] 0%N []); (Variant "Index"%string [(Field None 158%N (Some "AccountIndex"%string) [])] 1%N []); (Variant "Raw"%string [(Field None 10%N (Some "Vec<u8>"%string) [])] 2%N []); (Variant "Address32"%string [(Field None 1%N (Some "[u8; 32]"%string) [])] 3%N []); (Variant "Address20"%string [(Field None 47%N (Some "[u8; 20]"%string) [])] 4%N [])]) []).
Definition t158 : ty := (Ty [] [] (TCompact 82%N) []).
Definition t159 : ty := (Ty ["pallet_balances"%string; "pallet"%string; "Error"%string] [("T"%string,None); ("I"%string,None)] (TVariant [(Variant "VestingBalance"%string [] 0%N ["Vesting balance too high to send value"%string]); (Variant "LiquidityRestrictions"%string [] 1%N ["Account liquidity restrictions prevent withdrawal"%string]); (Variant "InsufficientBalance"%string [] 2%N ["Balance too low to send value"%string]); (Variant "ExistentialDeposit"%string [] 3%N ["Value too low to create account due to existential deposit"%string]); (Variant "KeepAlive"%string [] 4%N ["Transfer/payment would kill account"%string]); (Variant "ExistingVestingSchedule"%string [] 5%N ["A vesting schedule already exists for this account"%string]); (Variant "DeadAccount"%string [] 6%N ["Beneficiary account must pre-exist"%string]); (Variant "TooManyReserves"%string [] 7%N ["Number of named reserves exceed MaxReserves"%string])]) ["
			Custom [dispatch errors](https://docs.substrate.io/v3/runtime/events-and-errors)
			of this pallet.
			"%string]).
Definition t160 : ty := (Ty ["sp_arithmetic"%string; "fixed_point"%string; "FixedU128"%string] [] (TComposite [(Field None 6%N (Some "u128"%string) [])]) []).
Definition t161 : ty := (Ty ["pallet_transaction_payment"%string; "Releases"%string] [] (TVariant [(Variant "V1Ancient"%string [] 0%N []); (Variant "V2"%string [] 1%N [])]) []).
Definition t162 : ty := (Ty ["sp_runtime"%string; "bounded"%string; "bounded_vec"%string; "BoundedVec"%string] [("T"%string,(Some 163%N)); ("S"%string,None)] (TComposite [(Field None 164%N (Some "Vec<T>"%string) [])]) []).
Definition t163 : ty := (Ty ["pallet_authorship"%string; "UncleEntryItem"%string] [("BlockNumber"%string,(Some 4%N)); ("Hash"%string,(Some 9%N)); ("Author"%string,(Some 0%N))] (TVariant [(Variant "InclusionHeight"%string [(Field None 4%N (Some "BlockNumber"%string) [])] 0%N []); (Variant "Uncle"%string [(Field None 9%N (Some "Hash"%string) []); (Field None 96%N (Some "Option<Author>"%string) [])] 1%N [])]) []).
Definition t164 : ty := (Ty [] [] (TSequence 163%N) []).
Definition t165 : ty := (Ty ["pallet_authorship"%string; "pallet"%string; "Call"%string] [("T"%string,None)] (TVariant [(Variant "set_uncles"%string [(Field (Some "new_uncles"%string) 166%N (Some "Vec<T::Header>"%string) [])] 0%N ["Provide a set of uncles."%string])]) ["Contains one variant per dispatchable that can be called by an extrinsic."%string]).
Definition t166 : ty := (Ty [] [] (TSequence 167%N) []).
Definition t167 : ty := (Ty ["sp_runtime"%string; "generic"%string; "header"%string; "Header"%string] [("Number"%string,(Some 4%N)); ("Hash"%string,(Some 168%N))] (TComposite [(Field (Some "parent_hash"%string) 9%N (Some "Hash::Output"%string) []); (Field (Some "number"%string) 43%N (Some "Number"%string) []); (Field (Some "state_root"%string) 9%N (Some "Hash::Output"%string) []); (Field (Some "extrinsics_root"%string) 9%N (Some "Hash::Output"%string) []); (Field (Some "digest"%string) 11%N (Some "Digest"%string) [])]) []).
Definition t168 : ty := (Ty ["sp_runtime"%string; "traits"%string; "BlakeTwo256"%string] [] (TComposite []) []).
Definition t169 : ty := (Ty ["pallet_authorship"%string; "pallet"%string; "Error"%string] [("T"%string,None)] (TVariant [(Variant "InvalidUncleParent"%string [] 0%N ["The uncle parent not in the chain."%string]); (Variant "UnclesAlreadySet"%string [] 1%N ["Uncles already set in the block."%string]); (Variant "TooManyUncles"%string [] 2%N ["Too many uncles."%string]); (Variant "GenesisUncle"%string [] 3%N ["The uncle is genesis."%string]); (Variant "TooHighUncle"%string [] 4%N ["The uncle is too high in chain."%string]); (Variant "UncleAlreadyIncluded"%string [] 5%N ["The uncle is already included."%string]); (Variant "OldUncle"%string [] 6%N ["The uncle isn't recent enough to be included."%string])]) ["
			Custom [dispatch errors](https://docs.substrate.io/v3/runtime/events-and-errors)
			of this pallet.
			"%string]).
Definition t170 : ty := (Ty ["sp_runtime"%string; "bounded"%string; "bounded_vec"%string; "BoundedVec"%string] [("T"%string,(Some 0%N)); ("S"%string,None)] (TComposite [(Field None 32%N (Some "Vec<T>"%string) [])]) []).
Definition t171 : ty := (Ty ["sp_runtime"%string; "bounded"%string; "bounded_vec"%string; "BoundedVec"%string] [("T"%string,(Some 172%N)); ("S"%string,None)] (TComposite [(Field None 173%N (Some "Vec<T>"%string) [])]) []).
Definition t172 : ty := (Ty ["pallet_collator_selection"%string; "pallet"%string; "CandidateInfo"%string] [("AccountId"%string,(Some 0%N)); ("Balance"%string,(Some 6%N))] (TComposite [(Field (Some "who"%string) 0%N (Some "AccountId"%string) []); (Field (Some "deposit"%string) 6%N (Some "Balance"%string) [])]) []).
Definition t173 : ty := (Ty [] [] (TSequence 172%N) []).
Definition t174 : ty := (Ty ["pallet_collator_selection"%string; "pallet"%string; "Call"%string] [("T"%string,None)] (TVariant [(Variant "set_invulnerables"%string [(Field (Some "new"%string) 32%N (Some "Vec<T::AccountId>"%string) [])] 0%N ["Set the list of invulnerable (fixed) collators."%string]); (Variant "set_desired_candidates"%string [(Field (Some "max"%string) 4%N (Some "u32"%string) [])] 1%N ["Set the ideal number of collators (not including the invulnerables)."%string; "If lowering this number, then the number of running collators could be higher than this figure."%string; "Aside from that edge case, there should be no other way to have more collators than the desired number."%string]); (Variant "set_candidacy_bond"%string [(Field (Some "bond"%string) 6%N (Some "BalanceOf<T>"%string) [])] 2%N ["Set the candidacy bond amount."%string]); (Variant "register_as_candidate"%string [] 3%N ["Register this account as a collator candidate. The account must (a) already have"%string; "registered session keys and (b) be able to reserve the `CandidacyBond`."%string; ""%string; "This call is not available to `Invulnerable` collators."%string]); (Variant "leave_intent"%string [] 4%N ["Deregister `origin` as a collator candidate. Note that the collator can only leave on"%string; "session change. The `CandidacyBond` will be unreserved immediately."%string; ""%string; "This call will fail if the total number of candidates would drop below `MinCandidates`."%string; ""%string; "This call is not available to `Invulnerable` collators."%string])]) ["Contains one variant per dispatchable that can be called by an extrinsic."%string]).
Definition t175 : ty := (Ty ["pallet_collator_selection"%string; "pallet"%string; "Error"%string] [("T"%string,None)] (TVariant [(Variant "TooManyCandidates"%string [] 0%N ["Too many candidates"%string]); (Variant "TooFewCandidates"%string [] 1%N ["Too few candidates"%string]); (Variant "Unknown"%string [] 2%N ["Unknown error"%string]); (Variant "Permission"%string [] 3%N ["Permission issue"%string]); (Variant "AlreadyCandidate"%string [] 4%N ["User is already a candidate"%string]); (Variant "NotCandidate"%string [] 5%N ["User is not a candidate"%string]); (Variant "TooManyInvulnerables"%string [] 6%N ["Too many invulnerables"%string]); (Variant "AlreadyInvulnerable"%string [] 7%N ["User is already an Invulnerable"%string]); (Variant "NoAssociatedValidatorId"%string [] 8%N ["Account has no associated validator ID"%string]); (Variant "ValidatorNotRegistered"%string [] 9%N ["Validator ID is not yet registered"%string])]) ["
			Custom [dispatch errors](https://docs.substrate.io/v3/runtime/events-and-errors)
			of this pallet.
			"%string]).
Definition t176 : ty := (Ty [] [] (TSequence 177%N) []).
Definition t177 : ty := (Ty [] [] (TTuple [0%N; 178%N]) []).
Definition t178 : ty := (Ty ["westmint_runtime"%string; "SessionKeys"%string] [] (TComposite [(Field (Some "aura"%string) 179%N (Some "<Aura as $crate::BoundToRuntimeAppPublic>::Public"%string) [])]) []).
Definition t179 : ty := (Ty ["sp_consensus_aura"%string; "sr25519"%string; "app_sr25519"%string; "Public"%string] [] (TComposite [(Field None 180%N (Some "sr25519::Public"%string) [])]) []).
Definition t180 : ty := (Ty ["sp_core"%string; "sr25519"%string; "Public"%string] [] (TComposite [(Field None 1%N (Some "[u8; 32]"%string) [])]) []).
Definition t181 : ty := (Ty [] [] (TTuple [182%N; 10%N]) []).
Definition t182 : ty := (Ty ["sp_core"%string; "crypto"%string; "KeyTypeId"%string] [] (TComposite [(Field None 14%N (Some "[u8; 4]"%string) [])]) []).
Definition t183 : ty := (Ty ["pallet_session"%string; "pallet"%string; "Call"%string] [("T"%string,None)] (TVariant [(Variant "set_keys"%string [(Field (Some "keys"%string) 178%N (Some "T::Keys"%string) []); (Field (Some "proof"%string) 10%N (Some "Vec<u8>"%string) [])] 0%N ["Sets the session key(s) of the function caller to `keys`."%string; "Allows an account to set its session key prior to becoming a validator."%string; "This doesn't take effect until the next session."%string; ""%string; "The dispatch origin of this function must be signed."%string; ""%string; "# <weight>"%string; "- Complexity: `O(1)`. Actual cost depends on the number of length of"%string; "  `T::Keys::key_ids()` which is fixed."%string; "- DbReads: `origin account`, `T::ValidatorIdOf`, `NextKeys`"%string; "- DbWrites: `origin account`, `NextKeys`"%string; "- DbReads per key id: `KeyOwner`"%string; "- DbWrites per key id: `KeyOwner`"%string; "# </weight>"%string]); (Variant "purge_keys"%string [] 1%N ["Removes any session key(s) of the function caller."%string; ""%string; "This doesn't take effect until the next session."%string; ""%string; "The dispatch origin of this function must be Signed and the account must be either be"%string; "convertible to a validator ID using the chain's typical addressing system (this usually"%string; "means being a controller account) or directly convertible into a validator ID (which"%string; "usually means being a stash account)."%string; ""%string; "# <weight>"%string; "- Complexity: `O(1)` in number of key types. Actual cost depends on the number of length"%string; "  of `T::Keys::key_ids()` which is fixed."%string; "- DbReads: `T::ValidatorIdOf`, `NextKeys`, `origin account`"%string; "- DbWrites: `NextKeys`, `origin account`"%string; "- DbWrites per key id: `KeyOwner`"%string; "# </weight>"%string])]) ["Contains one variant per dispatchable that can be called by an extrinsic."%string]).
Definition t184 : ty := (Ty ["pallet_session"%string; "pallet"%string; "Error"%string] [("T"%string,None)] (TVariant [(Variant "InvalidProof"%string [] 0%N ["Invalid ownership proof."%string]); (Variant "NoAssociatedValidatorId"%string [] 1%N ["No associated validator ID for account."%string]); (Variant "DuplicatedKey"%string [] 2%N ["Registered duplicate key."%string]); (Variant "NoKeys"%string [] 3%N ["No keys are associated with this account."%string]); (Variant "NoAccount"%string [] 4%N ["Key setting account is not live, so it's impossible to associate keys."%string])]) ["Error for the session pallet."%string]).
Definition t185 : ty := (Ty ["sp_runtime"%string; "bounded"%string; "bounded_vec"%string; "BoundedVec"%string] [("T"%string,(Some 179%N)); ("S"%string,None)] (TComposite [(Field None 186%N (Some "Vec<T>"%string) [])]) []).
Definition t186 : ty := (Ty [] [] (TSequence 179%N) []).
Definition t187 : ty := (Ty ["sp_consensus_slots"%string; "Slot"%string] [] (TComposite [(Field None 8%N (Some "u64"%string) [])]) []).
Definition t188 : ty := (Ty [] [] (TSequence 189%N) []).
Definition t189 : ty := (Ty ["cumulus_pallet_xcmp_queue"%string; "InboundChannelDetails"%string] [] (TComposite [(Field (Some "sender"%string) 37%N (Some "ParaId"%string) []); (Field (Some "state"%string) 190%N (Some "InboundState"%string) []); (Field (Some "message_metadata"%string) 191%N (Some "Vec<(RelayBlockNumber, XcmpMessageFormat)>"%string) [])]) []).
Definition t190 : ty := (Ty ["cumulus_pallet_xcmp_queue"%string; "InboundState"%string] [] (TVariant [(Variant "Ok"%string [] 0%N []); (Variant "Suspended"%string [] 1%N [])]) []).
Definition t191 : ty := (Ty [] [] (TSequence 192%N) []).
Definition t192 : ty := (Ty [] [] (TTuple [4%N; 193%N]) []).
Definition t193 : ty := (Ty ["polkadot_parachain"%string; "primitives"%string; "XcmpMessageFormat"%string] [] (TVariant [(Variant "ConcatenatedVersionedXcm"%string [] 0%N []); (Variant "ConcatenatedEncodedBlob"%string [] 1%N []); (Variant "Signals"%string [] 2%N [])]) []).
Definition t194 : ty := (Ty [] [] (TTuple [37%N; 4%N]) []).
Definition t195 : ty := (Ty [] [] (TSequence 196%N) []).
Definition t196 : ty := (Ty ["cumulus_pallet_xcmp_queue"%string; "OutboundChannelDetails"%string] [] (TComposite [(Field (Some "recipient"%string) 37%N (Some "ParaId"%string) []); (Field (Some "state"%string) 197%N (Some "OutboundState"%string) []); (Field (Some "signals_exist"%string) 89%N (Some "bool"%string) []); (Field (Some "first_index"%string) 87%N (Some "u16"%string) []); (Field (Some "last_index"%string) 87%N (Some "u16"%string) [])]) []).
Definition t197 : ty := (Ty ["cumulus_pallet_xcmp_queue"%string; "OutboundState"%string] [] (TVariant [(Variant "Ok"%string [] 0%N []); (Variant "Suspended"%string [] 1%N [])]) []).
Definition t198 : ty := (Ty [] [] (TTuple [37%N; 87%N]) []).
Definition t199 : ty := (Ty ["cumulus_pallet_xcmp_queue"%string; "QueueConfigData"%string] [] (TComposite [(Field (Some "suspend_threshold"%string) 4%N (Some "u32"%string) []); (Field (Some "drop_threshold"%string) 4%N (Some "u32"%string) []); (Field (Some "resume_threshold"%string) 4%N (Some "u32"%string) []); (Field (Some "threshold_weight"%string) 8%N (Some "Weight"%string) []); (Field (Some "weight_restrict_decay"%string) 8%N (Some "Weight"%string) []); (Field (Some "xcmp_max_individual_weight"%string) 8%N (Some "Weight"%string) [])]) []).
Definition t200 : ty := (Ty [] [] (TTuple [37%N; 4%N; 10%N]) []).
Definition t201 : ty := (Ty ["cumulus_pallet_xcmp_queue"%string; "pallet"%string; "Call"%string] [("T"%string,None)] (TVariant [(Variant "service_overweight"%string [(Field (Some "index"%string) 8%N (Some "OverweightIndex"%string) []); (Field (Some "weight_limit"%string) 8%N (Some "Weight"%string) [])] 0%N ["Services a single overweight XCM."%string; ""%string; "- `origin`: Must pass `ExecuteOverweightOrigin`."%string; "- `index`: The index of the overweight XCM to service"%string; "- `weight_limit`: The amount of weight that XCM execution may take."%string; ""%string; "Errors:"%string; "- `BadOverweightIndex`: XCM under `index` is not found in the `Overweight` storage map."%string; "- `BadXcm`: XCM under `index` cannot be properly decoded into a valid XCM format."%string; "- `WeightOverLimit`: XCM execution may use greater `weight_limit`."%string; ""%string; "Events:"%string; "- `OverweightServiced`: On success."%string]); (Variant "suspend_xcm_execution"%string [] 1%N ["Suspends all XCM executions for the XCMP queue, regardless of the sender's origin."%string; ""%string; "- `origin`: Must pass `ControllerOrigin`."%string]); (Variant "resume_xcm_execution"%string [] 2%N ["Resumes all XCM executions for the XCMP queue."%string; ""%string; "Note that this function doesn't change the status of the in/out bound channels."%string; ""%string; "- `origin`: Must pass `ControllerOrigin`."%string]); (Variant "update_suspend_threshold"%string [(Field (Some "new"%string) 4%N (Some "u32"%string) [])] 3%N ["Overwrites the number of pages of messages which must be in the queue for the other side to be told to"%string; "suspend their sending."%string; ""%string; "- `origin`: Must pass `Root`."%string; "- `new`: Desired value for `QueueConfigData.suspend_value`"%string]); (Variant "update_drop_threshold"%string [(Field (Some "new"%string) 4%N (Some "u32"%string) [])] 4%N ["Overwrites the number of pages of messages which must be in the queue after which we drop any further"%string; "messages from the channel."%string; ""%string; "- `origin`: Must pass `Root`."%string; "- `new`: Desired value for `QueueConfigData.drop_threshold`"%string]); (Variant "update_resume_threshold"%string [(Field (Some "new"%string) 4%N (Some "u32"%string) [])] 5%N ["Overwrites the number of pages of messages which the queue must be reduced to before it signals that"%string; "message sending may recommence after it has been suspended."%string; ""%string; "- `origin`: Must pass `Root`."%string; "- `new`: Desired value for `QueueConfigData.resume_threshold`"%string]); (Variant "update_threshold_weight"%string [(Field (Some "new"%string) 8%N (Some "Weight"%string) [])] 6%N ["Overwrites the amount of remaining weight under which we stop processing messages."%string; ""%string; "- `origin`: Must pass `Root`."%string; "- `new`: Desired value for `QueueConfigData.threshold_weight`"%string]); (Variant "update_weight_restrict_decay"%string [(Field (Some "new"%string) 8%N (Some "Weight"%string) [])] 7%N ["Overwrites the speed to which the available weight approaches the maximum weight."%string; "A lower number results in a faster progression. A value of 1 makes the entire weight available initially."%string; ""%string; "- `origin`: Must pass `Root`."%string; "- `new`: Desired value for `QueueConfigData.weight_restrict_decay`."%string]); (Variant "update_xcmp_max_individual_weight"%string [(Field (Some "new"%string) 8%N (Some "Weight"%string) [])] 8%N ["Overwrite the maximum amount of weight any individual message may consume."%string; "Messages above this weight go into the overweight queue and may only be serviced explicitly."%string; ""%string; "- `origin`: Must pass `Root`."%string; "- `new`: Desired value for `QueueConfigData.xcmp_max_individual_weight`."%string])]) ["Contains one variant per dispatchable that can be called by an extrinsic."%string]).
Definition t202 : ty := (Ty ["cumulus_pallet_xcmp_queue"%string; "pallet"%string; "Error"%string] [("T"%string,None)] (TVariant [(Variant "FailedToSend"%string [] 0%N ["Failed to send XCM message."%string]); (Variant "BadXcmOrigin"%string [] 1%N ["Bad XCM origin."%string]); (Variant "BadXcm"%string [] 2%N ["Bad XCM data."%string]); (Variant "BadOverweightIndex"%string [] 3%N ["Bad overweight index."%string]); (Variant "WeightOverLimit"%string [] 4%N ["Provided weight is possibly not enough to execute the message."%string])]) ["
			Custom [dispatch errors](https://docs.substrate.io/v3/runtime/events-and-errors)
			of this pallet.
			"%string]).
Definition t203 : ty := (Ty ["pallet_xcm"%string; "pallet"%string; "QueryStatus"%string] [("BlockNumber"%string,(Some 4%N))] (TVariant [(Variant "Pending"%string [(Field (Some "responder"%string) 77%N (Some "VersionedMultiLocation"%string) []); (Field (Some "maybe_notify"%string) 204%N (Some "Option<(u8, u8)>"%string) []); (Field (Some "timeout"%string) 4%N (Some "BlockNumber"%string) [])] 0%N []); (Variant "VersionNotifier"%string [(Field (Some "origin"%string) 77%N (Some "VersionedMultiLocation"%string) []); (Field (Some "is_active"%string) 89%N (Some "bool"%string) [])] 1%N []); (Variant "Ready"%string [(Field (Some "response"%string) 206%N (Some "VersionedResponse"%string) []); (Field (Some "at"%string) 4%N (Some "BlockNumber"%string) [])] 2%N [])]) []).
Definition t204 : ty := (Ty ["Option"%string] [("T"%string,(Some 205%N))] (TVariant [(Variant "None"%string [] 0%N []); (Variant "Some"%string [(Field None 205%N None [])] 1%N [])]) []).
Definition t205 : ty := (Ty [] [] (TTuple [2%N; 2%N]) []).
Definition t206 : ty := (Ty ["xcm"%string; "VersionedResponse"%string] [] (TVariant [(Variant "V0"%string [(Field None 207%N (Some "v0::Response"%string) [])] 0%N []); (Variant "V1"%string [(Field None 208%N (Some "v1::Response"%string) [])] 1%N []); (Variant "V2"%string [(Field None 62%N (Some "v2::Response"%string) [])] 2%N [])]) []).
Definition t207 : ty := (Ty ["xcm"%string; "v0"%string; "Response"%string] [] (TVariant [(Variant "Assets"%string [(Field None 73%N (Some "Vec<MultiAsset>"%string) [])] 0%N [])]) []).
Definition t208 : ty := (Ty ["xcm"%string; "v1"%string; "Response"%string] [] (TVariant [(Variant "Assets"%string [(Field None 54%N (Some "MultiAssets"%string) [])] 0%N []); (Variant "Version"%string [(Field None 4%N (Some "super::Version"%string) [])] 1%N [])]) []).
Definition t209 : ty := (Ty [] [] (TTuple [4%N; 77%N]) []).
Definition t210 : ty := (Ty [] [] (TTuple [8%N; 8%N; 4%N]) []).
Definition t211 : ty := (Ty ["sp_runtime"%string; "bounded"%string; "bounded_vec"%string; "BoundedVec"%string] [("T"%string,(Some 212%N)); ("S"%string,None)] (TComposite [(Field None 213%N (Some "Vec<T>"%string) [])]) []).
Definition t212 : ty := (Ty [] [] (TTuple [77%N; 4%N]) []).
Definition t213 : ty := (Ty [] [] (TSequence 212%N) []).
Definition t214 : ty := (Ty ["pallet_xcm"%string; "pallet"%string; "VersionMigrationStage"%string] [] (TVariant [(Variant "MigrateSupportedVersion"%string [] 0%N []); (Variant "MigrateVersionNotifiers"%string [] 1%N []); (Variant "NotifyCurrentTargets"%string [(Field None 215%N (Some "Option<Vec<u8>>"%string) [])] 2%N []); (Variant "MigrateAndNotifyOldTargets"%string [] 3%N [])]) []).
Definition t215 : ty := (Ty ["Option"%string] [("T"%string,(Some 10%N))] (TVariant [(Variant "None"%string [] 0%N []); (Variant "Some"%string [(Field None 10%N None [])] 1%N [])]) []).
Definition t216 : ty := (Ty ["pallet_xcm"%string; "pallet"%string; "Call"%string] [("T"%string,None)] (TVariant [(Variant "send"%string [(Field (Some "dest"%string) 77%N (Some "Box<VersionedMultiLocation>"%string) []); (Field (Some "message"%string) 217%N (Some "Box<VersionedXcm<()>>"%string) [])] 0%N []); (Variant "teleport_assets"%string [(Field (Some "dest"%string) 77%N (Some "Box<VersionedMultiLocation>"%string) []); (Field (Some "beneficiary"%string) 77%N (Some "Box<VersionedMultiLocation>"%string) []); (Field (Some "assets"%string) 72%N (Some "Box<VersionedMultiAssets>"%string) []); (Field (Some "fee_asset_item"%string) 4%N (Some "u32"%string) [])] 1%N ["Teleport some assets from the local chain to some destination chain."%string; ""%string; "Fee payment on the destination side is made from the asset in the `assets` vector of"%string; "index `fee_asset_item`. The weight limit for fees is not provided and thus is unlimited,"%string; "with all fees taken as needed from the asset."%string; ""%string; "- `origin`: Must be capable of withdrawing the `assets` and executing XCM."%string; "- `dest`: Destination context for the assets. Will typically be `X2(Parent, Parachain(..))` to send"%string; "  from parachain to parachain, or `X1(Parachain(..))` to send from relay to parachain."%string; "- `beneficiary`: A beneficiary location for the assets in the context of `dest`. Will generally be"%string; "  an `AccountId32` value."%string; "- `assets`: The assets to be withdrawn. The first item should be the currency used to to pay the fee on the"%string; "  `dest` side. May not be empty."%string; "- `fee_asset_item`: The index into `assets` of the item which should be used to pay"%string; "  fees."%string]); (Variant "reserve_transfer_assets"%string [(Field (Some "dest"%string) 77%N (Some "Box<VersionedMultiLocation>"%string) []); (Field (Some "beneficiary"%string) 77%N (Some "Box<VersionedMultiLocation>"%string) []); (Field (Some "assets"%string) 72%N (Some "Box<VersionedMultiAssets>"%string) []); (Field (Some "fee_asset_item"%string) 4%N (Some "u32"%string) [])] 2%N ["Transfer some assets from the local chain to the sovereign account of a destination"%string; "chain and forward a notification XCM."%string; ""%string; "Fee payment on the destination side is made from the asset in the `assets` vector of"%string; "index `fee_asset_item`. The weight limit for fees is not provided and thus is unlimited,"%string; "with all fees taken as needed from the asset."%string; ""%string; "- `origin`: Must be capable of withdrawing the `assets` and executing XCM."%string; "- `dest`: Destination context for the assets. Will typically be `X2(Parent, Parachain(..))` to send"%string; "  from parachain to parachain, or `X1(Parachain(..))` to send from relay to parachain."%string; "- `beneficiary`: A beneficiary location for the assets in the context of `dest`. Will generally be"%string; "  an `AccountId32` value."%string; "- `assets`: The assets to be withdrawn. This should include the assets used to pay the fee on the"%string; "  `dest` side."%string; "- `fee_asset_item`: The index into `assets` of the item which should be used to pay"%string; "  fees."%string]); (Variant "execute"%string [(Field (Some "message"%string) 226%N (Some "Box<VersionedXcm<<T as SysConfig>::Call>>"%string) []); (Field (Some "max_weight"%string) 8%N (Some "Weight"%string) [])] 3%N ["Execute an XCM message from a local, signed, origin."%string; ""%string; "An event is deposited indicating whether `msg` could be executed completely or only"%string; "partially."%string; ""%string; "No more than `max_weight` will be used in its attempted execution. If this is less than the"%string; "maximum amount of weight that the message could take to be executed, then no execution"%string; "attempt will be made."%string; ""%string; "NOTE: A successful return to this does *not* imply that the `msg` was executed successfully"%string; "to completion; only that *some* of it was executed."%string]); (Variant "force_xcm_version"%string [(Field (Some "location"%string) 40%N (Some "Box<MultiLocation>"%string) []); (Field (Some "xcm_version"%string) 4%N (Some "XcmVersion"%string) [])] 4%N ["Extoll that a particular destination can be communicated with through a particular"%string; "version of XCM."%string; ""%string; "- `origin`: Must be Root."%string; "- `location`: The destination that is being described."%string; "- `xcm_version`: The latest version of XCM that `location` supports."%string]); (Variant "force_default_xcm_version"%string [(Field (Some "maybe_xcm_version"%string) 93%N (Some "Option<XcmVersion>"%string) [])] 5%N ["Set a safe XCM version (the version that XCM should be encoded with if the most recent"%string; "version a destination can accept is unknown)."%string; ""%string; "- `origin`: Must be Root."%string; "- `maybe_xcm_version`: The default XCM encoding version, or `None` to disable."%string]); (Variant "force_subscribe_version_notify"%string [(Field (Some "location"%string) 77%N (Some "Box<VersionedMultiLocation>"%string) [])] 6%N ["Ask a location to notify us regarding their XCM version and any changes to it."%string; ""%string; "- `origin`: Must be Root."%string; "- `location`: The location to which we should subscribe for XCM version notifications."%string]); (Variant "force_unsubscribe_version_notify"%string [(Field (Some "location"%string) 77%N (Some "Box<VersionedMultiLocation>"%string) [])] 7%N ["Require that a particular destination should no longer notify us regarding any XCM"%string; "version changes."%string; ""%string; "- `origin`: Must be Root."%string; "- `location`: The location to which we are currently subscribed for XCM version"%string; "  notifications which we no longer desire."%string]); (Variant "limited_reserve_transfer_assets"%string [(Field (Some "dest"%string) 77%N (Some "Box<VersionedMultiLocation>"%string) []); (Field (Some "beneficiary"%string) 77%N (Some "Box<VersionedMultiLocation>"%string) []); (Field (Some "assets"%string) 72%N (Some "Box<VersionedMultiAssets>"%string) []); (Field (Some "fee_asset_item"%string) 4%N (Some "u32"%string) []); (Field (Some "weight_limit"%string) 70%N (Some "WeightLimit"%string) [])] 8%N ["Transfer some assets from the local chain to the sovereign account of a destination"%string; "chain and forward a notification XCM."%string; ""%string; "Fee payment on the destination side is made from the asset in the `assets` vector of"%string; "index `fee_asset_item`, up to enough to pay for `weight_limit` of weight. If more weight"%string; "is needed than `weight_limit`, then the operation will fail and the assets send may be"%string; "at risk."%string; ""%string; "- `origin`: Must be capable of withdrawing the `assets` and executing XCM."%string; "- `dest`: Destination context for the assets. Will typically be `X2(Parent, Parachain(..))` to send"%string; "  from parachain to parachain, or `X1(Parachain(..))` to send from relay to parachain."%string; "- `beneficiary`: A beneficiary location for the assets in the context of `dest`. Will generally be"%string; "  an `AccountId32` value."%string; "- `assets`: The assets to be withdrawn. This should include the assets used to pay the fee on the"%string; "  `dest` side."%string; "- `fee_asset_item`: The index into `assets` of the item which should be used to pay"%string; "  fees."%string; "- `weight_limit`: The remote-side weight limit, if any, for the XCM fee purchase."%string]); (Variant "limited_teleport_assets"%string [(Field (Some "dest"%string) 77%N (Some "Box<VersionedMultiLocation>"%string) []); (Field (Some "beneficiary"%string) 77%N (Some "Box<VersionedMultiLocation>"%string) []); (Field (Some "assets"%string) 72%N (Some "Box<VersionedMultiAssets>"%string) []); (Field (Some "fee_asset_item"%string) 4%N (Some "u32"%string) []); (Field (Some "weight_limit"%string) 70%N (Some "WeightLimit"%string) [])] 9%N ["Teleport some assets from the local chain to some destination chain."%string; ""%string; "Fee payment on the destination side is made from the asset in the `assets` vector of"%string; "index `fee_asset_item`, up to enough to pay for `weight_limit` of weight. If more weight"%string; "is needed than `weight_limit`, then the operation will fail and the assets send may be"%string; "at risk."%string; ""%string; "- `origin`: Must be capable of withdrawing the `assets` and executing XCM."%string; "- `dest`: Destination context for the assets. Will typically be `X2(Parent, Parachain(..))` to send"%string; "  from parachain to parachain, or `X1(Parachain(..))` to send from relay to parachain."%string; "- `beneficiary`: A beneficiary location for the assets in the context of `dest`. Will generally be"%string; "  an `AccountId32` value."%string; "- `assets`: The assets to be withdrawn. The first item should be the currency used to to pay the fee on the"%string; "  `dest` side. May not be empty."%string; "- `fee_asset_item`: The index into `assets` of the item which should be used to pay"%string; "  fees."%string; "- `weight_limit`: The remote-side weight limit, if any, for the XCM fee purchase."%string])]) ["Contains one variant per dispatchable that can be called by an extrinsic."%string]).
Definition t217 : ty := (Ty ["xcm"%string; "VersionedXcm"%string] [("Call"%string,None)] (TVariant [(Variant "V0"%string [(Field None 218%N (Some "v0::Xcm<Call>"%string) [])] 0%N []); (Variant "V1"%string [(Field None 222%N (Some "v1::Xcm<Call>"%string) [])] 1%N []); (Variant "V2"%string [(Field None 51%N (Some "v2::Xcm<Call>"%string) [])] 2%N [])]) []).
Definition t218 : ty := (Ty ["xcm"%string; "v0"%string; "Xcm"%string] [("Call"%string,None)] (TVariant [(Variant "WithdrawAsset"%string [(Field (Some "assets"%string) 73%N (Some "Vec<MultiAsset>"%string) []); (Field (Some "effects"%string) 219%N (Some "Vec<Order<Call>>"%string) [])] 0%N []); (Variant "ReserveAssetDeposit"%string [(Field (Some "assets"%string) 73%N (Some "Vec<MultiAsset>"%string) []); (Field (Some "effects"%string) 219%N (Some "Vec<Order<Call>>"%string) [])] 1%N []); (Variant "TeleportAsset"%string [(Field (Some "assets"%string) 73%N (Some "Vec<MultiAsset>"%string) []); (Field (Some "effects"%string) 219%N (Some "Vec<Order<Call>>"%string) [])] 2%N []); (Variant "QueryResponse"%string [(Field (Some "query_id"%string) 46%N (Some "u64"%string) []); (Field (Some "response"%string) 207%N (Some "Response"%string) [])] 3%N []); (Variant "TransferAsset"%string [(Field (Some "assets"%string) 73%N (Some "Vec<MultiAsset>"%string) []); (Field (Some "dest"%string) 75%N (Some "MultiLocation"%string) [])] 4%N []); (Variant "TransferReserveAsset"%string [(Field (Some "assets"%string) 73%N (Some "Vec<MultiAsset>"%string) []); (Field (Some "dest"%string) 75%N (Some "MultiLocation"%string) []); (Field (Some "effects"%string) 219%N (Some "Vec<Order<()>>"%string) [])] 5%N []); (Variant "Transact"%string [(Field (Some "origin_type"%string) 65%N (Some "OriginKind"%string) []); (Field (Some "require_weight_at_most"%string) 8%N (Some "u64"%string) []); (Field (Some "call"%string) 66%N (Some "DoubleEncoded<Call>"%string) [])] 6%N []); (Variant "HrmpNewChannelOpenRequest"%string [(Field (Some "sender"%string) 43%N (Some "u32"%string) []); (Field (Some "max_message_size"%string) 43%N (Some "u32"%string) []); (Field (Some "max_capacity"%string) 43%N (Some "u32"%string) [])] 7%N []); (Variant "HrmpChannelAccepted"%string [(Field (Some "recipient"%string) 43%N (Some "u32"%string) [])] 8%N []); (Variant "HrmpChannelClosing"%string [(Field (Some "initiator"%string) 43%N (Some "u32"%string) []); (Field (Some "sender"%string) 43%N (Some "u32"%string) []); (Field (Some "recipient"%string) 43%N (Some "u32"%string) [])] 9%N []); (Variant "RelayedFrom"%string [(Field (Some "who"%string) 75%N (Some "MultiLocation"%string) []); (Field (Some "message"%string) 218%N (Some "alloc::boxed::Box<Xcm<Call>>"%string) [])] 10%N [])]) []).
Definition t219 : ty := (Ty [] [] (TSequence 220%N) []).
Definition t220 : ty := (Ty ["xcm"%string; "v0"%string; "order"%string; "Order"%string] [("Call"%string,None)] (TVariant [(Variant "Null"%string [] 0%N []); (Variant "DepositAsset"%string [(Field (Some "assets"%string) 73%N (Some "Vec<MultiAsset>"%string) []); (Field (Some "dest"%string) 75%N (Some "MultiLocation"%string) [])] 1%N []); (Variant "DepositReserveAsset"%string [(Field (Some "assets"%string) 73%N (Some "Vec<MultiAsset>"%string) []); (Field (Some "dest"%string) 75%N (Some "MultiLocation"%string) []); (Field (Some "effects"%string) 219%N (Some "Vec<Order<()>>"%string) [])] 2%N []); (Variant "ExchangeAsset"%string [(Field (Some "give"%string) 73%N (Some "Vec<MultiAsset>"%string) []); (Field (Some "receive"%string) 73%N (Some "Vec<MultiAsset>"%string) [])] 3%N []); (Variant "InitiateReserveWithdraw"%string [(Field (Some "assets"%string) 73%N (Some "Vec<MultiAsset>"%string) []); (Field (Some "reserve"%string) 75%N (Some "MultiLocation"%string) []); (Field (Some "effects"%string) 219%N (Some "Vec<Order<()>>"%string) [])] 4%N []); (Variant "InitiateTeleport"%string [(Field (Some "assets"%string) 73%N (Some "Vec<MultiAsset>"%string) []); (Field (Some "dest"%string) 75%N (Some "MultiLocation"%string) []); (Field (Some "effects"%string) 219%N (Some "Vec<Order<()>>"%string) [])] 5%N []); (Variant "QueryHolding"%string [(Field (Some "query_id"%string) 46%N (Some "u64"%string) []); (Field (Some "dest"%string) 75%N (Some "MultiLocation"%string) []); (Field (Some "assets"%string) 73%N (Some "Vec<MultiAsset>"%string) [])] 6%N []); (Variant "BuyExecution"%string [(Field (Some "fees"%string) 74%N (Some "MultiAsset"%string) []); (Field (Some "weight"%string) 8%N (Some "u64"%string) []); (Field (Some "debt"%string) 8%N (Some "u64"%string) []); (Field (Some "halt_on_error"%string) 89%N (Some "bool"%string) []); (Field (Some "xcm"%string) 221%N (Some "Vec<Xcm<Call>>"%string) [])] 7%N [])]) []).
Definition t221 : ty := (Ty [] [] (TSequence 218%N) []).
Definition t222 : ty := (Ty ["xcm"%string; "v1"%string; "Xcm"%string] [("Call"%string,None)] (TVariant [(Variant "WithdrawAsset"%string [(Field (Some "assets"%string) 54%N (Some "MultiAssets"%string) []); (Field (Some "effects"%string) 223%N (Some "Vec<Order<Call>>"%string) [])] 0%N []); (Variant "ReserveAssetDeposited"%string [(Field (Some "assets"%string) 54%N (Some "MultiAssets"%string) []); (Field (Some "effects"%string) 223%N (Some "Vec<Order<Call>>"%string) [])] 1%N []); (Variant "ReceiveTeleportedAsset"%string [(Field (Some "assets"%string) 54%N (Some "MultiAssets"%string) []); (Field (Some "effects"%string) 223%N (Some "Vec<Order<Call>>"%string) [])] 2%N []); (Variant "QueryResponse"%string [(Field (Some "query_id"%string) 46%N (Some "u64"%string) []); (Field (Some "response"%string) 208%N (Some "Response"%string) [])] 3%N []); (Variant "TransferAsset"%string [(Field (Some "assets"%string) 54%N (Some "MultiAssets"%string) []); (Field (Some "beneficiary"%string) 40%N (Some "MultiLocation"%string) [])] 4%N []); (Variant "TransferReserveAsset"%string [(Field (Some "assets"%string) 54%N (Some "MultiAssets"%string) []); (Field (Some "dest"%string) 40%N (Some "MultiLocation"%string) []); (Field (Some "effects"%string) 223%N (Some "Vec<Order<()>>"%string) [])] 5%N []); (Variant "Transact"%string [(Field (Some "origin_type"%string) 65%N (Some "OriginKind"%string) []); (Field (Some "require_weight_at_most"%string) 8%N (Some "u64"%string) []); (Field (Some "call"%string) 66%N (Some "DoubleEncoded<Call>"%string) [])] 6%N []); (Variant "HrmpNewChannelOpenRequest"%string [(Field (Some "sender"%string) 43%N (Some "u32"%string) []); (Field (Some "max_message_size"%string) 43%N (Some "u32"%string) []); (Field (Some "max_capacity"%string) 43%N (Some "u32"%string) [])] 7%N []); (Variant "HrmpChannelAccepted"%string [(Field (Some "recipient"%string) 43%N (Some "u32"%string) [])] 8%N []); (Variant "HrmpChannelClosing"%string [(Field (Some "initiator"%string) 43%N (Some "u32"%string) []); (Field (Some "sender"%string) 43%N (Some "u32"%string) []); (Field (Some "recipient"%string) 43%N (Some "u32"%string) [])] 9%N []); (Variant "RelayedFrom"%string [(Field (Some "who"%string) 41%N (Some "InteriorMultiLocation"%string) []); (Field (Some "message"%string) 222%N (Some "alloc::boxed::Box<Xcm<Call>>"%string) [])] 10%N []); (Variant "SubscribeVersion"%string [(Field (Some "query_id"%string) 46%N (Some "u64"%string) []); (Field (Some "max_response_weight"%string) 46%N (Some "u64"%string) [])] 11%N []); (Variant "UnsubscribeVersion"%string [] 12%N [])]) []).
Definition t223 : ty := (Ty [] [] (TSequence 224%N) []).
Definition t224 : ty := (Ty ["xcm"%string; "v1"%string; "order"%string; "Order"%string] [("Call"%string,None)] (TVariant [(Variant "Noop"%string [] 0%N []); (Variant "DepositAsset"%string [(Field (Some "assets"%string) 67%N (Some "MultiAssetFilter"%string) []); (Field (Some "max_assets"%string) 4%N (Some "u32"%string) []); (Field (Some "beneficiary"%string) 40%N (Some "MultiLocation"%string) [])] 1%N []); (Variant "DepositReserveAsset"%string [(Field (Some "assets"%string) 67%N (Some "MultiAssetFilter"%string) []); (Field (Some "max_assets"%string) 4%N (Some "u32"%string) []); (Field (Some "dest"%string) 40%N (Some "MultiLocation"%string) []); (Field (Some "effects"%string) 223%N (Some "Vec<Order<()>>"%string) [])] 2%N []); (Variant "ExchangeAsset"%string [(Field (Some "give"%string) 67%N (Some "MultiAssetFilter"%string) []); (Field (Some "receive"%string) 54%N (Some "MultiAssets"%string) [])] 3%N []); (Variant "InitiateReserveWithdraw"%string [(Field (Some "assets"%string) 67%N (Some "MultiAssetFilter"%string) []); (Field (Some "reserve"%string) 40%N (Some "MultiLocation"%string) []); (Field (Some "effects"%string) 223%N (Some "Vec<Order<()>>"%string) [])] 4%N []); (Variant "InitiateTeleport"%string [(Field (Some "assets"%string) 67%N (Some "MultiAssetFilter"%string) []); (Field (Some "dest"%string) 40%N (Some "MultiLocation"%string) []); (Field (Some "effects"%string) 223%N (Some "Vec<Order<()>>"%string) [])] 5%N []); (Variant "QueryHolding"%string [(Field (Some "query_id"%string) 46%N (Some "u64"%string) []); (Field (Some "dest"%string) 40%N (Some "MultiLocation"%string) []); (Field (Some "assets"%string) 67%N (Some "MultiAssetFilter"%string) [])] 6%N []); (Variant "BuyExecution"%string [(Field (Some "fees"%string) 56%N (Some "MultiAsset"%string) []); (Field (Some "weight"%string) 8%N (Some "u64"%string) []); (Field (Some "debt"%string) 8%N (Some "u64"%string) []); (Field (Some "halt_on_error"%string) 89%N (Some "bool"%string) []); (Field (Some "instructions"%string) 225%N (Some "Vec<Xcm<Call>>"%string) [])] 7%N [])]) []).
Definition t225 : ty := (Ty [] [] (TSequence 222%N) []).
Definition t226 : ty := (Ty ["xcm"%string; "VersionedXcm"%string] [("Call"%string,None)] (TVariant [(Variant "V0"%string [(Field None 227%N (Some "v0::Xcm<Call>"%string) [])] 0%N []); (Variant "V1"%string [(Field None 232%N (Some "v1::Xcm<Call>"%string) [])] 1%N []); (Variant "V2"%string [(Field None 236%N (Some "v2::Xcm<Call>"%string) [])] 2%N [])]) []).
Definition t227 : ty := (Ty ["xcm"%string; "v0"%string; "Xcm"%string] [("Call"%string,None)] (TVariant [(Variant "WithdrawAsset"%string [(Field (Some "assets"%string) 73%N (Some "Vec<MultiAsset>"%string) []); (Field (Some "effects"%string) 228%N (Some "Vec<Order<Call>>"%string) [])] 0%N []); (Variant "ReserveAssetDeposit"%string [(Field (Some "assets"%string) 73%N (Some "Vec<MultiAsset>"%string) []); (Field (Some "effects"%string) 228%N (Some "Vec<Order<Call>>"%string) [])] 1%N []); (Variant "TeleportAsset"%string [(Field (Some "assets"%string) 73%N (Some "Vec<MultiAsset>"%string) []); (Field (Some "effects"%string) 228%N (Some "Vec<Order<Call>>"%string) [])] 2%N []); (Variant "QueryResponse"%string [(Field (Some "query_id"%string) 46%N (Some "u64"%string) []); (Field (Some "response"%string) 207%N (Some "Response"%string) [])] 3%N []); (Variant "TransferAsset"%string [(Field (Some "assets"%string) 73%N (Some "Vec<MultiAsset>"%string) []); (Field (Some "dest"%string) 75%N (Some "MultiLocation"%string) [])] 4%N []); (Variant "TransferReserveAsset"%string [(Field (Some "assets"%string) 73%N (Some "Vec<MultiAsset>"%string) []); (Field (Some "dest"%string) 75%N (Some "MultiLocation"%string) []); (Field (Some "effects"%string) 219%N (Some "Vec<Order<()>>"%string) [])] 5%N []); (Variant "Transact"%string [(Field (Some "origin_type"%string) 65%N (Some "OriginKind"%string) []); (Field (Some "require_weight_at_most"%string) 8%N (Some "u64"%string) []); (Field (Some "call"%string) 231%N (Some "DoubleEncoded<Call>"%string) [])] 6%N []); (Variant "HrmpNewChannelOpenRequest"%string [(Field (Some "sender"%string) 43%N (Some "u32"%string) []); (Field (Some "max_message_size"%string) 43%N (Some "u32"%string) []); (Field (Some "max_capacity"%string) 43%N (Some "u32"%string) [])] 7%N []); (Variant "HrmpChannelAccepted"%string [(Field (Some "recipient"%string) 43%N (Some "u32"%string) [])] 8%N []); (Variant "HrmpChannelClosing"%string [(Field (Some "initiator"%string) 43%N (Some "u32"%string) []); (Field (Some "sender"%string) 43%N (Some "u32"%string) []); (Field (Some "recipient"%string) 43%N (Some "u32"%string) [])] 9%N []); (Variant "RelayedFrom"%string [(Field (Some "who"%string) 75%N (Some "MultiLocation"%string) []); (Field (Some "message"%string) 227%N (Some "alloc::boxed::Box<Xcm<Call>>"%string) [])] 10%N [])]) []).
Definition t228 : ty := (Ty [] [] (TSequence 229%N) []).
Definition t229 : ty := (Ty ["xcm"%string; "v0"%string; "order"%string; "Order"%string] [("Call"%string,None)] (TVariant [(Variant "Null"%string [] 0%N []); (Variant "DepositAsset"%string [(Field (Some "assets"%string) 73%N (Some "Vec<MultiAsset>"%string) []); (Field (Some "dest"%string) 75%N (Some "MultiLocation"%string) [])] 1%N []); (Variant "DepositReserveAsset"%string [(Field (Some "assets"%string) 73%N (Some "Vec<MultiAsset>"%string) []); (Field (Some "dest"%string) 75%N (Some "MultiLocation"%string) []); (Field (Some "effects"%string) 219%N (Some "Vec<Order<()>>"%string) [])] 2%N []); (Variant "ExchangeAsset"%string [(Field (Some "give"%string) 73%N (Some "Vec<MultiAsset>"%string) []); (Field (Some "receive"%string) 73%N (Some "Vec<MultiAsset>"%string) [])] 3%N []); (Variant "InitiateReserveWithdraw"%string [(Field (Some "assets"%string) 73%N (Some "Vec<MultiAsset>"%string) []); (Field (Some "reserve"%string) 75%N (Some "MultiLocation"%string) []); (Field (Some "effects"%string) 219%N (Some "Vec<Order<()>>"%string) [])] 4%N []); (Variant "InitiateTeleport"%string [(Field (Some "assets"%string) 73%N (Some "Vec<MultiAsset>"%string) []); (Field (Some "dest"%string) 75%N (Some "MultiLocation"%string) []); (Field (Some "effects"%string) 219%N (Some "Vec<Order<()>>"%string) [])] 5%N []); (Variant "QueryHolding"%string [(Field (Some "query_id"%string) 46%N (Some "u64"%string) []); (Field (Some "dest"%string) 75%N (Some "MultiLocation"%string) []); (Field (Some "assets"%string) 73%N (Some "Vec<MultiAsset>"%string) [])] 6%N []); (Variant "BuyExecution"%string [(Field (Some "fees"%string) 74%N (Some "MultiAsset"%string) []); (Field (Some "weight"%string) 8%N (Some "u64"%string) []); (Field (Some "debt"%string) 8%N (Some "u64"%string) []); (Field (Some "halt_on_error"%string) 89%N (Some "bool"%string) []); (Field (Some "xcm"%string) 230%N (Some "Vec<Xcm<Call>>"%string) [])] 7%N [])]) []).
Definition t230 : ty := (Ty [] [] (TSequence 227%N) []).
Definition t231 : ty := (Ty ["xcm"%string; "double_encoded"%string; "DoubleEncoded"%string] [("T"%string,None)] (TComposite [(Field (Some "encoded"%string) 10%N (Some "Vec<u8>"%string) [])]) []).
Definition t232 : ty := (Ty ["xcm"%string; "v1"%string; "Xcm"%string] [("Call"%string,None)] (TVariant [(Variant "WithdrawAsset"%string [(Field (Some "assets"%string) 54%N (Some "MultiAssets"%string) []); (Field (Some "effects"%string) 233%N (Some "Vec<Order<Call>>"%string) [])] 0%N []); (Variant "ReserveAssetDeposited"%string [(Field (Some "assets"%string) 54%N (Some "MultiAssets"%string) []); (Field (Some "effects"%string) 233%N (Some "Vec<Order<Call>>"%string) [])] 1%N []); (Variant "ReceiveTeleportedAsset"%string [(Field (Some "assets"%string) 54%N (Some "MultiAssets"%string) []); (Field (Some "effects"%string) 233%N (Some "Vec<Order<Call>>"%string) [])] 2%N []); (Variant "QueryResponse"%string [(Field (Some "query_id"%string) 46%N (Some "u64"%string) []); (Field (Some "response"%string) 208%N (Some "Response"%string) [])] 3%N []); (Variant "TransferAsset"%string [(Field (Some "assets"%string) 54%N (Some "MultiAssets"%string) []); (Field (Some "beneficiary"%string) 40%N (Some "MultiLocation"%string) [])] 4%N []); (Variant "TransferReserveAsset"%string [(Field (Some "assets"%string) 54%N (Some "MultiAssets"%string) []); (Field (Some "dest"%string) 40%N (Some "MultiLocation"%string) []); (Field (Some "effects"%string) 223%N (Some "Vec<Order<()>>"%string) [])] 5%N []); (Variant "Transact"%string [(Field (Some "origin_type"%string) 65%N (Some "OriginKind"%string) []); (Field (Some "require_weight_at_most"%string) 8%N (Some "u64"%string) []); (Field (Some "call"%string) 231%N (Some "DoubleEncoded<Call>"%string) [])] 6%N []); (Variant "HrmpNewChannelOpenRequest"%string [(Field (Some "sender"%string) 43%N (Some "u32"%string) []); (Field (Some "max_message_size"%string) 43%N (Some "u32"%string) []); (Field (Some "max_capacity"%string) 43%N (Some "u32"%string) [])] 7%N []); (Variant "HrmpChannelAccepted"%string [(Field (Some "recipient"%string) 43%N (Some "u32"%string) [])] 8%N []); (Variant "HrmpChannelClosing"%string [(Field (Some "initiator"%string) 43%N (Some "u32"%string) []); (Field (Some "sender"%string) 43%N (Some "u32"%string) []); (Field (Some "recipient"%string) 43%N (Some "u32"%string) [])] 9%N []); (Variant "RelayedFrom"%string [(Field (Some "who"%string) 41%N (Some "InteriorMultiLocation"%string) []); (Field (Some "message"%string) 232%N (Some "alloc::boxed::Box<Xcm<Call>>"%string) [])] 10%N []); (Variant "SubscribeVersion"%string [(Field (Some "query_id"%string) 46%N (Some "u64"%string) []); (Field (Some "max_response_weight"%string) 46%N (Some "u64"%string) [])] 11%N []); (Variant "UnsubscribeVersion"%string [] 12%N [])]) []).
Definition t233 : ty := (Ty [] [] (TSequence 234%N) []).
Definition t234 : ty := (Ty ["xcm"%string; "v1"%string; "order"%string; "Order"%string] [("Call"%string,None)] (TVariant [(Variant "Noop"%string [] 0%N []); (Variant "DepositAsset"%string [(Field (Some "assets"%string) 67%N (Some "MultiAssetFilter"%string) []); (Field (Some "max_assets"%string) 4%N (Some "u32"%string) []); (Field (Some "beneficiary"%string) 40%N (Some "MultiLocation"%string) [])] 1%N []); (Variant "DepositReserveAsset"%string [(Field (Some "assets"%string) 67%N (Some "MultiAssetFilter"%string) []); (Field (Some "max_assets"%string) 4%N (Some "u32"%string) []); (Field (Some "dest"%string) 40%N (Some "MultiLocation"%string) []); (Field (Some "effects"%string) 223%N (Some "Vec<Order<()>>"%string) [])] 2%N []); (Variant "ExchangeAsset"%string [(Field (Some "give"%string) 67%N (Some "MultiAssetFilter"%string) []); (Field (Some "receive"%string) 54%N (Some "MultiAssets"%string) [])] 3%N []); (Variant "InitiateReserveWithdraw"%string [(Field (Some "assets"%string) 67%N (Some "MultiAssetFilter"%string) []); (Field (Some "reserve"%string) 40%N (Some "MultiLocation"%string) []); (Field (Some "effects"%string) 223%N (Some "Vec<Order<()>>"%string) [])] 4%N []); (Variant "InitiateTeleport"%string [(Field (Some "assets"%string) 67%N (Some "MultiAssetFilter"%string) []); (Field (Some "dest"%string) 40%N (Some "MultiLocation"%string) []); (Field (Some "effects"%string) 223%N (Some "Vec<Order<()>>"%string) [])] 5%N []); (Variant "QueryHolding"%string [(Field (Some "query_id"%string) 46%N (Some "u64"%string) []); (Field (Some "dest"%string) 40%N (Some "MultiLocation"%string) []); (Field (Some "assets"%string) 67%N (Some "MultiAssetFilter"%string) [])] 6%N []); (Variant "BuyExecution"%string [(Field (Some "fees"%string) 56%N (Some "MultiAsset"%string) []); (Field (Some "weight"%string) 8%N (Some "u64"%string) []); (Field (Some "debt"%string) 8%N (Some "u64"%string) []); (Field (Some "halt_on_error"%string) 89%N (Some "bool"%string) []); (Field (Some "instructions"%string) 235%N (Some "Vec<Xcm<Call>>"%string) [])] 7%N [])]) []).
Definition t235 : ty := (Ty [] [] (TSequence 232%N) []).
Definition t236 : ty := (Ty ["xcm"%string; "v2"%string; "Xcm"%string] [("Call"%string,None)] (TComposite [(Field None 237%N (Some "Vec<Instruction<Call>>"%string) [])]) []).
Definition t237 : ty := (Ty [] [] (TSequence 238%N) []).
Definition t238 : ty := (Ty ["xcm"%string; "v2"%string; "Instruction"%string] [("Call"%string,None)] (TVariant [(Variant "WithdrawAsset"%string [(Field None 54%N (Some "MultiAssets"%string) [])] 0%N []); (Variant "ReserveAssetDeposited"%string [(Field None 54%N (Some "MultiAssets"%string) [])] 1%N []); (Variant "ReceiveTeleportedAsset"%string [(Field None 54%N (Some "MultiAssets"%string) [])] 2%N []); (Variant "QueryResponse"%string [(Field (Some "query_id"%string) 46%N (Some "QueryId"%string) []); (Field (Some "response"%string) 62%N (Some "Response"%string) []); (Field (Some "max_weight"%string) 46%N (Some "u64"%string) [])] 3%N []); (Variant "TransferAsset"%string [(Field (Some "assets"%string) 54%N (Some "MultiAssets"%string) []); (Field (Some "beneficiary"%string) 40%N (Some "MultiLocation"%string) [])] 4%N []); (Variant "TransferReserveAsset"%string [(Field (Some "assets"%string) 54%N (Some "MultiAssets"%string) []); (Field (Some "dest"%string) 40%N (Some "MultiLocation"%string) []); (Field (Some "xcm"%string) 51%N (Some "Xcm<()>"%string) [])] 5%N []); (Variant "Transact"%string [(Field (Some "origin_type"%string) 65%N (Some "OriginKind"%string) []); (Field (Some "require_weight_at_most"%string) 46%N (Some "u64"%string) []); (Field (Some "call"%string) 231%N (Some "DoubleEncoded<Call>"%string) [])] 6%N []); (Variant "HrmpNewChannelOpenRequest"%string [(Field (Some "sender"%string) 43%N (Some "u32"%string) []); (Field (Some "max_message_size"%string) 43%N (Some "u32"%string) []); (Field (Some "max_capacity"%string) 43%N (Some "u32"%string) [])] 7%N []); (Variant "HrmpChannelAccepted"%string [(Field (Some "recipient"%string) 43%N (Some "u32"%string) [])] 8%N []); (Variant "HrmpChannelClosing"%string [(Field (Some "initiator"%string) 43%N (Some "u32"%string) []); (Field (Some "sender"%string) 43%N (Some "u32"%string) []); (Field (Some "recipient"%string) 43%N (Some "u32"%string) [])] 9%N []); (Variant "ClearOrigin"%string [] 10%N []); (Variant "DescendOrigin"%string [(Field None 41%N (Some "InteriorMultiLocation"%string) [])] 11%N []); (Variant "ReportError"%string [(Field (Some "query_id"%string) 46%N (Some "QueryId"%string) []); (Field (Some "dest"%string) 40%N (Some "MultiLocation"%string) []); (Field (Some "max_response_weight"%string) 46%N (Some "u64"%string) [])] 12%N []); (Variant "DepositAsset"%string [(Field (Some "assets"%string) 67%N (Some "MultiAssetFilter"%string) []); (Field (Some "max_assets"%string) 43%N (Some "u32"%string) []); (Field (Some "beneficiary"%string) 40%N (Some "MultiLocation"%string) [])] 13%N []); (Variant "DepositReserveAsset"%string [(Field (Some "assets"%string) 67%N (Some "MultiAssetFilter"%string) []); (Field (Some "max_assets"%string) 43%N (Some "u32"%string) []); (Field (Some "dest"%string) 40%N (Some "MultiLocation"%string) []); (Field (Some "xcm"%string) 51%N (Some "Xcm<()>"%string) [])] 14%N []); (Variant "ExchangeAsset"%string [(Field (Some "give"%string) 67%N (Some "MultiAssetFilter"%string) []); (Field (Some "receive"%string) 54%N (Some "MultiAssets"%string) [])] 15%N []); (Variant "InitiateReserveWithdraw"%string [(Field (Some "assets"%string) 67%N (Some "MultiAssetFilter"%string) []); (Field (Some "reserve"%string) 40%N (Some "MultiLocation"%string) []); (Field (Some "xcm"%string) 51%N (Some "Xcm<()>"%string) [])] 16%N []); (Variant "InitiateTeleport"%string [(Field (Some "assets"%string) 67%N (Some "MultiAssetFilter"%string) []); (Field (Some "dest"%string) 40%N (Some "MultiLocation"%string) []); (Field (Some "xcm"%string) 51%N (Some "Xcm<()>"%string) [])] 17%N []); (Variant "QueryHolding"%string [(Field (Some "query_id"%string) 46%N (Some "QueryId"%string) []); (Field (Some "dest"%string) 40%N (Some "MultiLocation"%string) []); (Field (Some "assets"%string) 67%N (Some "MultiAssetFilter"%string) []); (Field (Some "max_response_weight"%string) 46%N (Some "u64"%string) [])] 18%N []); (Variant "BuyExecution"%string [(Field (Some "fees"%string) 56%N (Some "MultiAsset"%string) []); (Field (Some "weight_limit"%string) 70%N (Some "WeightLimit"%string) [])] 19%N []); (Variant "RefundSurplus"%string [] 20%N []); (Variant "SetErrorHandler"%string [(Field None 236%N (Some "Xcm<Call>"%string) [])] 21%N []); (Variant "SetAppendix"%string [(Field None 236%N (Some "Xcm<Call>"%string) [])] 22%N []); (Variant "ClearError"%string [] 23%N []); (Variant "ClaimAsset"%string [(Field (Some "assets"%string) 54%N (Some "MultiAssets"%string) []); (Field (Some "ticket"%string) 40%N (Some "MultiLocation"%string) [])] 24%N []); (Variant "Trap"%string [(Field None 46%N (Some "u64"%string) [])] 25%N []); (Variant "SubscribeVersion"%string [(Field (Some "query_id"%string) 46%N (Some "QueryId"%string) []); (Field (Some "max_response_weight"%string) 46%N (Some "u64"%string) [])] 26%N []); (Variant "UnsubscribeVersion"%string [] 27%N [])]) []).
Definition t239 : ty := (Ty ["pallet_xcm"%string; "pallet"%string; "Error"%string] [("T"%string,None)] (TVariant [(Variant "Unreachable"%string [] 0%N ["The desired destination was unreachable, generally because there is a no way of routing"%string; "to it."%string]); (Variant "SendFailure"%string [] 1%N ["There was some other issue (i.e. not to do with routing) in sending the message. Perhaps"%string; "a lack of space for buffering the message."%string]); (Variant "Filtered"%string [] 2%N ["The message execution fails the filter."%string]); (Variant "UnweighableMessage"%string [] 3%N ["The message's weight could not be determined."%string]); (Variant "DestinationNotInvertible"%string [] 4%N ["The destination `MultiLocation` provided cannot be inverted."%string]); (Variant "Empty"%string [] 5%N ["The assets to be sent are empty."%string]); (Variant "CannotReanchor"%string [] 6%N ["Could not re-anchor the assets to declare the fees for the destination chain."%string]); (Variant "TooManyAssets"%string [] 7%N ["Too many assets have been attempted for transfer."%string]); (Variant "InvalidOrigin"%string [] 8%N ["Origin is invalid for sending."%string]); (Variant "BadVersion"%string [] 9%N ["The version of the `Versioned` value used is not able to be interpreted."%string]); (Variant "BadLocation"%string [] 10%N ["The given location could not be used (e.g. because it cannot be expressed in the"%string; "desired version of XCM)."%string]); (Variant "NoSubscription"%string [] 11%N ["The referenced subscription could not be found."%string]); (Variant "AlreadySubscribed"%string [] 12%N ["The location is invalid since it already has a subscription from us."%string])]) ["
			Custom [dispatch errors](https://docs.substrate.io/v3/runtime/events-and-errors)
			of this pallet.
			"%string]).
Definition t240 : ty := (Ty ["cumulus_pallet_xcm"%string; "pallet"%string; "Error"%string] [("T"%string,None)] (TVariant []) ["
			Custom [dispatch errors](https://docs.substrate.io/v3/runtime/events-and-errors)
			of this pallet.
			"%string]).
Definition t241 : ty := (Ty ["cumulus_pallet_dmp_queue"%string; "ConfigData"%string] [] (TComposite [(Field (Some "max_individual"%string) 8%N (Some "Weight"%string) [])]) []).
Definition t242 : ty := (Ty ["cumulus_pallet_dmp_queue"%string; "PageIndexData"%string] [] (TComposite [(Field (Some "begin_used"%string) 4%N (Some "PageCounter"%string) []); (Field (Some "end_used"%string) 4%N (Some "PageCounter"%string) []); (Field (Some "overweight_count"%string) 8%N (Some "OverweightIndex"%string) [])]) []).
Definition t243 : ty := (Ty [] [] (TSequence 244%N) []).
Definition t244 : ty := (Ty [] [] (TTuple [4%N; 10%N]) []).
Definition t245 : ty := (Ty ["cumulus_pallet_dmp_queue"%string; "pallet"%string; "Call"%string] [("T"%string,None)] (TVariant [(Variant "service_overweight"%string [(Field (Some "index"%string) 8%N (Some "OverweightIndex"%string) []); (Field (Some "weight_limit"%string) 8%N (Some "Weight"%string) [])] 0%N ["Service a single overweight message."%string; ""%string; "- `origin`: Must pass `ExecuteOverweightOrigin`."%string; "- `index`: The index of the overweight message to service."%string; "- `weight_limit`: The amount of weight that message execution may take."%string; ""%string; "Errors:"%string; "- `Unknown`: Message of `index` is unknown."%string; "- `OverLimit`: Message execution may use greater than `weight_limit`."%string; ""%string; "Events:"%string; "- `OverweightServiced`: On success."%string])]) ["Contains one variant per dispatchable that can be called by an extrinsic."%string]).
Definition t246 : ty := (Ty ["cumulus_pallet_dmp_queue"%string; "pallet"%string; "Error"%string] [("T"%string,None)] (TVariant [(Variant "Unknown"%string [] 0%N ["The message index given is unknown."%string]); (Variant "OverLimit"%string [] 1%N ["The amount of weight given is possibly not enough for executing the message."%string])]) ["
			Custom [dispatch errors](https://docs.substrate.io/v3/runtime/events-and-errors)
			of this pallet.
			"%string]).
Definition t247 : ty := (Ty ["pallet_utility"%string; "pallet"%string; "Call"%string] [("T"%string,None)] (TVariant [(Variant "batch"%string [(Field (Some "calls"%string) 248%N (Some "Vec<<T as Config>::Call>"%string) [])] 0%N ["Send a batch of dispatch calls."%string; ""%string; "May be called from any origin."%string; ""%string; "- `calls`: The calls to be dispatched from the same origin. The number of call must not"%string; "  exceed the constant: `batched_calls_limit` (available in constant metadata)."%string; ""%string; "If origin is root then call are dispatch without checking origin filter. (This includes"%string; "bypassing `frame_system::Config::BaseCallFilter`)."%string; ""%string; "# <weight>"%string; "- Complexity: O(C) where C is the number of calls to be batched."%string; "# </weight>"%string; ""%string; "This will return `Ok` in all circumstances. To determine the success of the batch, an"%string; "event is deposited. If a call failed and the batch was interrupted, then the"%string; "`BatchInterrupted` event is deposited, along with the number of successful calls made"%string; "and the error of the failed call. If all were successful, then the `BatchCompleted`"%string; "event is deposited."%string]); (Variant "as_derivative"%string [(Field (Some "index"%string) 87%N (Some "u16"%string) []); (Field (Some "call"%string) 249%N (Some "Box<<T as Config>::Call>"%string) [])] 1%N ["Send a call through an indexed pseudonym of the sender."%string; ""%string; "Filter from origin are passed along. The call will be dispatched with an origin which"%string; "use the same filter as the origin of this call."%string; ""%string; "NOTE: If you need to ensure that any account-based filtering is not honored (i.e."%string; "because you expect `proxy` to have been used prior in the call stack and you do not want"%string; "the call restrictions to apply to any sub-accounts), then use `as_multi_threshold_1`"%string; "in the Multisig pallet instead."%string; ""%string; "NOTE: Prior to version *12, this was called `as_limited_sub`."%string; ""%string; "The dispatch origin for this call must be _Signed_."%string]); (Variant "batch_all"%string [(Field (Some "calls"%string) 248%N (Some "Vec<<T as Config>::Call>"%string) [])] 2%N ["Send a batch of dispatch calls and atomically execute them."%string; "The whole transaction will rollback and fail if any of the calls failed."%string; ""%string; "May be called from any origin."%string; ""%string; "- `calls`: The calls to be dispatched from the same origin. The number of call must not"%string; "  exceed the constant: `batched_calls_limit` (available in constant metadata)."%string; ""%string; "If origin is root then call are dispatch without checking origin filter. (This includes"%string; "bypassing `frame_system::Config::BaseCallFilter`)."%string; ""%string; "# <weight>"%string; "- Complexity: O(C) where C is the number of calls to be batched."%string; "# </weight>"%string]); (Variant "dispatch_as"%string [(Field (Some "as_origin"%string) 261%N (Some "Box<T::PalletsOrigin>"%string) []); (Field (Some "call"%string) 249%N (Some "Box<<T as Config>::Call>"%string) [])] 3%N ["Dispatches a function call with a provided origin."%string; ""%string; "The dispatch origin for this call must be _Root_."%string; ""%string; "# <weight>"%string; "- O(1)."%string; "- Limited storage reads."%string; "- One DB write (event)."%string; "- Weight of derivative `call` execution + T::WeightInfo::dispatch_as()."%string; "# </weight>"%string]); (Variant "force_batch"%string [(Field (Some "calls"%string) 248%N (Some "Vec<<T as Config>::Call>"%string) [])] 4%N ["Send a batch of dispatch calls."%string; "Unlike `batch`, it allows errors and won't interrupt."%string; ""%string; "May be called from any origin."%string; ""%string; "- `calls`: The calls to be dispatched from the same origin. The number of call must not"%string; "  exceed the constant: `batched_calls_limit` (available in constant metadata)."%string; ""%string; "If origin is root then call are dispatch without checking origin filter. (This includes"%string; "bypassing `frame_system::Config::BaseCallFilter`)."%string; ""%string; "# <weight>"%string; "- Complexity: O(C) where C is the number of calls to be batched."%string; "# </weight>"%string])]) ["Contains one variant per dispatchable that can be called by an extrinsic."%string]).
Definition t248 : ty := (Ty [] [] (TSequence 249%N) []).
Definition t249 : ty := (Ty ["westmint_runtime"%string; "Call"%string] [] (TVariant [(Variant "System"%string [(Field None 103%N (Some "self::sp_api_hidden_includes_construct_runtime::hidden_include::dispatch
::CallableCallFor<System, Runtime>"%string) [])] 0%N []); (Variant "ParachainSystem"%string [(Field None 137%N (Some "self::sp_api_hidden_includes_construct_runtime::hidden_include::dispatch
::CallableCallFor<ParachainSystem, Runtime>"%string) [])] 1%N []); (Variant "Timestamp"%string [(Field None 147%N (Some "self::sp_api_hidden_includes_construct_runtime::hidden_include::dispatch
::CallableCallFor<Timestamp, Runtime>"%string) [])] 3%N []); (Variant "Balances"%string [(Field None 156%N (Some "self::sp_api_hidden_includes_construct_runtime::hidden_include::dispatch
::CallableCallFor<Balances, Runtime>"%string) [])] 10%N []); (Variant "Authorship"%string [(Field None 165%N (Some "self::sp_api_hidden_includes_construct_runtime::hidden_include::dispatch
::CallableCallFor<Authorship, Runtime>"%string) [])] 20%N []); (Variant "CollatorSelection"%string [(Field None 174%N (Some "self::sp_api_hidden_includes_construct_runtime::hidden_include::dispatch
::CallableCallFor<CollatorSelection, Runtime>"%string) [])] 21%N []); (Variant "Session"%string [(Field None 183%N (Some "self::sp_api_hidden_includes_construct_runtime::hidden_include::dispatch
::CallableCallFor<Session, Runtime>"%string) [])] 22%N []); (Variant "XcmpQueue"%string [(Field None 201%N (Some "self::sp_api_hidden_includes_construct_runtime::hidden_include::dispatch
::CallableCallFor<XcmpQueue, Runtime>"%string) [])] 30%N []); (Variant "PolkadotXcm"%string [(Field None 216%N (Some "self::sp_api_hidden_includes_construct_runtime::hidden_include::dispatch
::CallableCallFor<PolkadotXcm, Runtime>"%string) [])] 31%N []); (Variant "DmpQueue"%string [(Field None 245%N (Some "self::sp_api_hidden_includes_construct_runtime::hidden_include::dispatch
::CallableCallFor<DmpQueue, Runtime>"%string) [])] 33%N []); (Variant "Utility"%string [(Field None 247%N (Some "self::sp_api_hidden_includes_construct_runtime::hidden_include::dispatch
::CallableCallFor<Utility, Runtime>"%string) [])] 40%N []); (Variant "Multisig"%string [(Field None 250%N (Some "self::sp_api_hidden_includes_construct_runtime::hidden_include::dispatch
::CallableCallFor<Multisig, Runtime>"%string) [])] 41%N []); (Variant "Proxy"%string [(Field None 253%N (Some "self::sp_api_hidden_includes_construct_runtime::hidden_include::dispatch
::CallableCallFor<Proxy, Runtime>"%string) [])] 42%N []); (Variant "Assets"%string [(Field None 255%N (Some "self::sp_api_hidden_includes_construct_runtime::hidden_include::dispatch
::CallableCallFor<Assets, Runtime>"%string) [])] 50%N []); (Variant "Uniques"%string [(Field None 257%N (Some "self::sp_api_hidden_includes_construct_runtime::hidden_include::dispatch
::CallableCallFor<Uniques, Runtime>"%string) [])] 51%N [])]) []).
Definition t250 : ty := (Ty ["pallet_multisig"%string; "pallet"%string; "Call"%string] [("T"%string,None)] (TVariant [(Variant "as_multi_threshold_1"%string [(Field (Some "other_signatories"%string) 32%N (Some "Vec<T::AccountId>"%string) []); (Field (Some "call"%string) 249%N (Some "Box<<T as Config>::Call>"%string) [])] 0%N ["Immediately dispatch a multi-signature call using a single approval from the caller."%string; ""%string; "The dispatch origin for this call must be _Signed_."%string; ""%string; "- `other_signatories`: The accounts (other than the sender) who are part of the"%string; "multi-signature, but do not participate in the approval process."%string; "- `call`: The call to be executed."%string; ""%string; "Result is equivalent to the dispatched result."%string; ""%string; "# <weight>"%string; "O(Z + C) where Z is the length of the call and C its execution weight."%string; "-------------------------------"%string; "- DB Weight: None"%string; "- Plus Call Weight"%string; "# </weight>"%string]); (Variant "as_multi"%string [(Field (Some "threshold"%string) 87%N (Some "u16"%string) []); (Field (Some "other_signatories"%string) 32%N (Some "Vec<T::AccountId>"%string) []); (Field (Some "maybe_timepoint"%string) 251%N (Some "Option<Timepoint<T::BlockNumber>>"%string) []); (Field (Some "call"%string) 252%N (Some "OpaqueCall<T>"%string) []); (Field (Some "store_call"%string) 89%N (Some "bool"%string) []); (Field (Some "max_weight"%string) 8%N (Some "Weight"%string) [])] 1%N ["Register approval for a dispatch to be made from a deterministic composite account if"%string; "approved by a total of `threshold - 1` of `other_signatories`."%string; ""%string; "If there are enough, then dispatch the call."%string; ""%string; "Payment: `DepositBase` will be reserved if this is the first approval, plus"%string; "`threshold` times `DepositFactor`. It is returned once this dispatch happens or"%string; "is cancelled."%string; ""%string; "The dispatch origin for this call must be _Signed_."%string; ""%string; "- `threshold`: The total number of approvals for this dispatch before it is executed."%string; "- `other_signatories`: The accounts (other than the sender) who can approve this"%string; "dispatch. May not be empty."%string; "- `maybe_timepoint`: If this is the first approval, then this must be `None`. If it is"%string; "not the first approval, then it must be `Some`, with the timepoint (block number and"%string; "transaction index) of the first approval transaction."%string; "- `call`: The call to be executed."%string; ""%string; "NOTE: Unless this is the final approval, you will generally want to use"%string; "`approve_as_multi` instead, since it only requires a hash of the call."%string; ""%string; "Result is equivalent to the dispatched result if `threshold` is exactly `1`. Otherwise"%string; "on success, result is `Ok` and the result from the interior call, if it was executed,"%string; "may be found in the deposited `MultisigExecuted` event."%string; ""%string; "# <weight>"%string; "- `O(S + Z + Call)`."%string; "- Up to one balance-reserve or unreserve operation."%string; "- One passthrough operation, one insert, both `O(S)` where `S` is the number of"%string; "  signatories. `S` is capped by `MaxSignatories`, with weight being proportional."%string; "- One call encode & hash, both of complexity `O(Z)` where `Z` is tx-len."%string; "- One encode & hash, both of complexity `O(S)`."%string; "- Up to one binary search and insert (`O(logS + S)`)."%string; "- I/O: 1 read `O(S)`, up to 1 mutate `O(S)`. Up to one remove."%string; "- One event."%string; "- The weight of the `call`."%string; "- Storage: inserts one item, value size bounded by `MaxSignatories`, with a deposit"%string; "  taken for its lifetime of `DepositBase + threshold * DepositFactor`."%string; "-------------------------------"%string; "- DB Weight:"%string; "    - Reads: Multisig Storage, [Caller Account], Calls (if `store_call`)"%string; "    - Writes: Multisig Storage, [Caller Account], Calls (if `store_call`)"%string; "- Plus Call Weight"%string; "# </weight>"%string]); (Variant "approve_as_multi"%string [(Field (Some "threshold"%string) 87%N (Some "u16"%string) []); (Field (Some "other_signatories"%string) 32%N (Some "Vec<T::AccountId>"%string) []); (Field (Some "maybe_timepoint"%string) 251%N (Some "Option<Timepoint<T::BlockNumber>>"%string) []); (Field (Some "call_hash"%string) 1%N (Some "[u8; 32]"%string) []); (Field (Some "max_weight"%string) 8%N (Some "Weight"%string) [])] 2%N ["Register approval for a dispatch to be made from a deterministic composite account if"%string; "approved by a total of `threshold - 1` of `other_signatories`."%string; ""%string; "Payment: `DepositBase` will be reserved if this is the first approval, plus"%string; "`threshold` times `DepositFactor`. It is returned once this dispatch happens or"%string; "is cancelled."%string; ""%string; "The dispatch origin for this call must be _Signed_."%string; ""%string; "- `threshold`: The total number of approvals for this dispatch before it is executed."%string; "- `other_signatories`: The accounts (other than the sender) who can approve this"%string; "dispatch. May not be empty."%string; "- `maybe_timepoint`: If this is the first approval, then this must be `None`. If it is"%string; "not the first approval, then it must be `Some`, with the timepoint (block number and"%string; "transaction index) of the first approval transaction."%string; "- `call_hash`: The hash of the call to be executed."%string; ""%string; "NOTE: If this is the final approval, you will want to use `as_multi` instead."%string; ""%string; "# <weight>"%string; "- `O(S)`."%string; "- Up to one balance-reserve or unreserve operation."%string; "- One passthrough operation, one insert, both `O(S)` where `S` is the number of"%string; "  signatories. `S` is capped by `MaxSignatories`, with weight being proportional."%string; "- One encode & hash, both of complexity `O(S)`."%string; "- Up to one binary search and insert (`O(logS + S)`)."%string; "- I/O: 1 read `O(S)`, up to 1 mutate `O(S)`. Up to one remove."%string; "- One event."%string; "- Storage: inserts one item, value size bounded by `MaxSignatories`, with a deposit"%string; "  taken for its lifetime of `DepositBase + threshold * DepositFactor`."%string; "----------------------------------"%string; "- DB Weight:"%string; "    - Read: Multisig Storage, [Caller Account]"%string; "    - Write: Multisig Storage, [Caller Account]"%string; "# </weight>"%string]); (Variant "cancel_as_multi"%string [(Field (Some "threshold"%string) 87%N (Some "u16"%string) []); (Field (Some "other_signatories"%string) 32%N (Some "Vec<T::AccountId>"%string) []); (Field (Some "timepoint"%string) 84%N (Some "Timepoint<T::BlockNumber>"%string) []); (Field (Some "call_hash"%string) 1%N (Some "[u8; 32]"%string) [])] 3%N ["Cancel a pre-existing, on-going multisig transaction. Any deposit reserved previously"%string; "for this operation will be unreserved on success."%string; ""%string; "The dispatch origin for this call must be _Signed_."%string; ""%string; "- `threshold`: The total number of approvals for this dispatch before it is executed."%string; "- `other_signatories`: The accounts (other than the sender) who can approve this"%string; "dispatch. May not be empty."%string; "- `timepoint`: The timepoint (block number and transaction index) of the first approval"%string; "transaction for this dispatch."%string; "- `call_hash`: The hash of the call to be executed."%string; ""%string; "# <weight>"%string; "- `O(S)`."%string; "- Up to one balance-reserve or unreserve operation."%string; "- One passthrough operation, one insert, both `O(S)` where `S` is the number of"%string; "  signatories. `S` is capped by `MaxSignatories`, with weight being proportional."%string; "- One encode & hash, both of complexity `O(S)`."%string; "- One event."%string; "- I/O: 1 read `O(S)`, one remove."%string; "- Storage: removes one item."%string; "----------------------------------"%string; "- DB Weight:"%string; "    - Read: Multisig Storage, [Caller Account], Refund Account, Calls"%string; "    - Write: Multisig Storage, [Caller Account], Refund Account, Calls"%string; "# </weight>"%string])]) ["Contains one variant per dispatchable that can be called by an extrinsic."%string]).
Definition t251 : ty := (Ty ["Option"%string] [("T"%string,(Some 84%N))] (TVariant [(Variant "None"%string [] 0%N []); (Variant "Some"%string [(Field None 84%N None [])] 1%N [])]) []).
Definition t252 : ty := (Ty ["frame_support"%string; "traits"%string; "misc"%string; "WrapperKeepOpaque"%string] [("T"%string,(Some 249%N))] (TComposite [(Field None 43%N None []); (Field None 249%N (Some "T"%string) [])]) []).
Definition t253 : ty := (Ty ["pallet_proxy"%string; "pallet"%string; "Call"%string] [("T"%string,None)] (TVariant [(Variant "proxy"%string [(Field (Some "real"%string) 0%N (Some "T::AccountId"%string) []); (Field (Some "force_proxy_type"%string) 254%N (Some "Option<T::ProxyType>"%string) []); (Field (Some "call"%string) 249%N (Some "Box<<T as Config>::Call>"%string) [])] 0%N ["Dispatch the given `call` from an account that the sender is authorised for through"%string; "`add_proxy`."%string; ""%string; "Removes any corresponding announcement(s)."%string; ""%string; "The dispatch origin for this call must be _Signed_."%string; ""%string; "Parameters:"%string; "- `real`: The account that the proxy will make a call on behalf of."%string; "- `force_proxy_type`: Specify the exact proxy type to be used and checked for this call."%string; "- `call`: The call to be made by the `real` account."%string; ""%string; "# <weight>"%string; "Weight is a function of the number of proxies the user has (P)."%string; "# </weight>"%string]); (Variant "add_proxy"%string [(Field (Some "delegate"%string) 0%N (Some "T::AccountId"%string) []); (Field (Some "proxy_type"%string) 86%N (Some "T::ProxyType"%string) []); (Field (Some "delay"%string) 4%N (Some "T::BlockNumber"%string) [])] 1%N ["Register a proxy account for the sender that is able to make calls on its behalf."%string; ""%string; "The dispatch origin for this call must be _Signed_."%string; ""%string; "Parameters:"%string; "- `proxy`: The account that the `caller` would like to make a proxy."%string; "- `proxy_type`: The permissions allowed for this proxy account."%string; "- `delay`: The announcement period required of the initial proxy. Will generally be"%string; "zero."%string; ""%string; "# <weight>"%string; "Weight is a function of the number of proxies the user has (P)."%string; "# </weight>"%string]); (Variant "remove_proxy"%string [(Field (Some "delegate"%string) 0%N (Some "T::AccountId"%string) []); (Field (Some "proxy_type"%string) 86%N (Some "T::ProxyType"%string) []); (Field (Some "delay"%string) 4%N (Some "T::BlockNumber"%string) [])] 2%N ["Unregister a proxy account for the sender."%string; ""%string; "The dispatch origin for this call must be _Signed_."%string; ""%string; "Parameters:"%string; "- `proxy`: The account that the `caller` would like to remove as a proxy."%string; "- `proxy_type`: The permissions currently enabled for the removed proxy account."%string; ""%string; "# <weight>"%string; "Weight is a function of the number of proxies the user has (P)."%string; "# </weight>"%string]); (Variant "remove_proxies"%string [] 3%N ["Unregister all proxy accounts for the sender."%string; ""%string; "The dispatch origin for this call must be _Signed_."%string; ""%string; "WARNING: This may be called on accounts created by `anonymous`, however if done, then"%string; "the unreserved fees will be inaccessible. **All access to this account will be lost.**"%string; ""%string; "# <weight>"%string; "Weight is a function of the number of proxies the user has (P)."%string; "# </weight>"%string]); (Variant "anonymous"%string [(Field (Some "proxy_type"%string) 86%N (Some "T::ProxyType"%string) []); (Field (Some "delay"%string) 4%N (Some "T::BlockNumber"%string) []); (Field (Some "index"%string) 87%N (Some "u16"%string) [])] 4%N ["Spawn a fresh new account that is guaranteed to be otherwise inaccessible, and"%string; "initialize it with a proxy of `proxy_type` for `origin` sender."%string; ""%string; "Requires a `Signed` origin."%string; ""%string; "- `proxy_type`: The type of the proxy that the sender will be registered as over the"%string; "new account. This will almost always be the most permissive `ProxyType` possible to"%string; "allow for maximum flexibility."%string; "- `index`: A disambiguation index, in case this is called multiple times in the same"%string; "transaction (e.g. with `utility::batch`). Unless you're using `batch` you probably just"%string; "want to use `0`."%string; "- `delay`: The announcement period required of the initial proxy. Will generally be"%string; "zero."%string; ""%string; "Fails with `Duplicate` if this has already been called in this transaction, from the"%string; "same sender, with the same parameters."%string; ""%string; "Fails if there are insufficient funds to pay for deposit."%string; ""%string; "# <weight>"%string; "Weight is a function of the number of proxies the user has (P)."%string; "# </weight>"%string; "TODO: Might be over counting 1 read"%string]); (Variant "kill_anonymous"%string [(Field (Some "spawner"%string) 0%N (Some "T::AccountId"%string) []); (Field (Some "proxy_type"%string) 86%N (Some "T::ProxyType"%string) []); (Field (Some "index"%string) 87%N (Some "u16"%string) []); (Field (Some "height"%string) 43%N (Some "T::BlockNumber"%string) []); (Field (Some "ext_index"%string) 43%N (Some "u32"%string) [])] 5%N ["Removes a previously spawned anonymous proxy."%string; ""%string; "WARNING: **All access to this account will be lost.** Any funds held in it will be"%string; "inaccessible."%string; ""%string; "Requires a `Signed` origin, and the sender account must have been created by a call to"%string; "`anonymous` with corresponding parameters."%string; ""%string; "- `spawner`: The account that originally called `anonymous` to create this account."%string; "- `index`: The disambiguation index originally passed to `anonymous`. Probably `0`."%string; "- `proxy_type`: The proxy type originally passed to `anonymous`."%string; "- `height`: The height of the chain when the call to `anonymous` was processed."%string; "- `ext_index`: The extrinsic index in which the call to `anonymous` was processed."%string; ""%string; "Fails with `NoPermission` in case the caller is not a previously created anonymous"%string; "account whose `anonymous` call has corresponding parameters."%string; ""%string; "# <weight>"%string; "Weight is a function of the number of proxies the user has (P)."%string; "# </weight>"%string]); (Variant "announce"%string [(Field (Some "real"%string) 0%N (Some "T::AccountId"%string) []); (Field (Some "call_hash"%string) 9%N (Some "CallHashOf<T>"%string) [])] 6%N ["Publish the hash of a proxy-call that will be made in the future."%string; ""%string; "This must be called some number of blocks before the corresponding `proxy` is attempted"%string; "if the delay associated with the proxy relationship is greater than zero."%string; ""%string; "No more than `MaxPending` announcements may be made at any one time."%string; ""%string; "This will take a deposit of `AnnouncementDepositFactor` as well as"%string; "`AnnouncementDepositBase` if there are no other pending announcements."%string; ""%string; "The dispatch origin for this call must be _Signed_ and a proxy of `real`."%string; ""%string; "Parameters:"%string; "- `real`: The account that the proxy will make a call on behalf of."%string; "- `call_hash`: The hash of the call to be made by the `real` account."%string; ""%string; "# <weight>"%string; "Weight is a function of:"%string; "- A: the number of announcements made."%string; "- P: the number of proxies the user has."%string; "# </weight>"%string]); (Variant "remove_announcement"%string [(Field (Some "real"%string) 0%N (Some "T::AccountId"%string) []); (Field (Some "call_hash"%string) 9%N (Some "CallHashOf<T>"%string) [])] 7%N ["Remove a given announcement."%string; ""%string; "May be called by a proxy account to remove a call they previously announced and return"%string; "the deposit."%string; ""%string; "The dispatch origin for this call must be _Signed_."%string; ""%string; "Parameters:"%string; "- `real`: The account that the proxy will make a call on behalf of."%string; "- `call_hash`: The hash of the call to be made by the `real` account."%string; ""%string; "# <weight>"%string; "Weight is a function of:"%string; "- A: the number of announcements made."%string; "- P: the number of proxies the user has."%string; "# </weight>"%string]); (Variant "reject_announcement"%string [(Field (Some "delegate"%string) 0%N (Some "T::AccountId"%string) []); (Field (Some "call_hash"%string) 9%N (Some "CallHashOf<T>"%string) [])] 8%N ["Remove the given announcement of a delegate."%string; ""%string; "May be called by a target (proxied) account to remove a call that one of their delegates"%string; "(`delegate`) has announced they want to execute. The deposit is returned."%string; ""%string; "The dispatch origin for this call must be _Signed_."%string; ""%string; "Parameters:"%string; "- `delegate`: The account that previously announced the call."%string; "- `call_hash`: The hash of the call to be made."%string; ""%string; "# <weight>"%string; "Weight is a function of:"%string; "- A: the number of announcements made."%string; "- P: the number of proxies the user has."%string; "# </weight>"%string]); (Variant "proxy_announced"%string [(Field (Some "delegate"%string) 0%N (Some "T::AccountId"%string) []); (Field (Some "real"%string) 0%N (Some "T::AccountId"%string) []); (Field (Some "force_proxy_type"%string) 254%N (Some "Option<T::ProxyType>"%string) []); (Field (Some "call"%string) 249%N (Some "Box<<T as Config>::Call>"%string) [])] 9%N ["Dispatch the given `call` from an account that the sender is authorized for through"%string; "`add_proxy`."%string; ""%string; "Removes any corresponding announcement(s)."%string; ""%string; "The dispatch origin for this call must be _Signed_."%string; ""%string; "Parameters:"%string; "- `real`: The account that the proxy will make a call on behalf of."%string; "- `force_proxy_type`: Specify the exact proxy type to be used and checked for this call."%string; "- `call`: The call to be made by the `real` account."%string; ""%string; "# <weight>"%string; "Weight is a function of:"%string; "- A: the number of announcements made."%string; "- P: the number of proxies the user has."%string; "# </weight>"%string])]) ["Contains one variant per dispatchable that can be called by an extrinsic."%string]).
Definition t254 : ty := (Ty ["Option"%string] [("T"%string,(Some 86%N))] (TVariant [(Variant "None"%string [] 0%N []); (Variant "Some"%string [(Field None 86%N None [])] 1%N [])]) []).
Definition t255 : ty := (Ty ["pallet_assets"%string; "pallet"%string; "Call"%string] [("T"%string,None); ("I"%string,None)] (TVariant [(Variant "create"%string [(Field (Some "id"%string) 43%N (Some "T::AssetId"%string) []); (Field (Some "admin"%string) 157%N (Some "<T::Lookup as StaticLookup>::Source"%string) []); (Field (Some "min_balance"%string) 6%N (Some "T::Balance"%string) [])] 0%N ["Issue a new class of fungible assets from a public origin."%string; ""%string; "This new asset class has no assets initially and its owner is the origin."%string; ""%string; "The origin must be Signed and the sender must have sufficient funds free."%string; ""%string; "Funds of sender are reserved by `AssetDeposit`."%string; ""%string; "Parameters:"%string; "- `id`: The identifier of the new asset. This must not be currently in use to identify"%string; "an existing asset."%string; "- `admin`: The admin of this class of assets. The admin is the initial address of each"%string; "member of the asset class's admin team."%string; "- `min_balance`: The minimum balance of this new asset that any single account must"%string; "have. If an account's balance is reduced below this, then it collapses to zero."%string; ""%string; "Emits `Created` event when successful."%string; ""%string; "Weight: `O(1)`"%string]); (Variant "force_create"%string [(Field (Some "id"%string) 43%N (Some "T::AssetId"%string) []); (Field (Some "owner"%string) 157%N (Some "<T::Lookup as StaticLookup>::Source"%string) []); (Field (Some "is_sufficient"%string) 89%N (Some "bool"%string) []); (Field (Some "min_balance"%string) 48%N (Some "T::Balance"%string) [])] 1%N ["Issue a new class of fungible assets from a privileged origin."%string; ""%string; "This new asset class has no assets initially."%string; ""%string; "The origin must conform to `ForceOrigin`."%string; ""%string; "Unlike `create`, no funds are reserved."%string; ""%string; "- `id`: The identifier of the new asset. This must not be currently in use to identify"%string; "an existing asset."%string; "- `owner`: The owner of this class of assets. The owner has full superuser permissions"%string; "over this asset, but may later change and configure the permissions using"%string; "`transfer_ownership` and `set_team`."%string; "- `min_balance`: The minimum balance of this new asset that any single account must"%string; "have. If an account's balance is reduced below this, then it collapses to zero."%string; ""%string; "Emits `ForceCreated` event when successful."%string; ""%string; "Weight: `O(1)`"%string]); (Variant "destroy"%string [(Field (Some "id"%string) 43%N (Some "T::AssetId"%string) []); (Field (Some "witness"%string) 256%N (Some "DestroyWitness"%string) [])] 2%N ["Destroy a class of fungible assets."%string; ""%string; "The origin must conform to `ForceOrigin` or must be Signed and the sender must be the"%string; "owner of the asset `id`."%string; ""%string; "- `id`: The identifier of the asset to be destroyed. This must identify an existing"%string; "asset."%string; ""%string; "Emits `Destroyed` event when successful."%string; ""%string; "NOTE: It can be helpful to first freeze an asset before destroying it so that you"%string; "can provide accurate witness information and prevent users from manipulating state"%string; "in a way that can make it harder to destroy."%string; ""%string; "Weight: `O(c + p + a)` where:"%string; "- `c = (witness.accounts - witness.sufficients)`"%string; "- `s = witness.sufficients`"%string; "- `a = witness.approvals`"%string]); (Variant "mint"%string [(Field (Some "id"%string) 43%N (Some "T::AssetId"%string) []); (Field (Some "beneficiary"%string) 157%N (Some "<T::Lookup as StaticLookup>::Source"%string) []); (Field (Some "amount"%string) 48%N (Some "T::Balance"%string) [])] 3%N ["Mint assets of a particular class."%string; ""%string; "The origin must be Signed and the sender must be the Issuer of the asset `id`."%string; ""%string; "- `id`: The identifier of the asset to have some amount minted."%string; "- `beneficiary`: The account to be credited with the minted assets."%string; "- `amount`: The amount of the asset to be minted."%string; ""%string; "Emits `Issued` event when successful."%string; ""%string; "Weight: `O(1)`"%string; "Modes: Pre-existing balance of `beneficiary`; Account pre-existence of `beneficiary`."%string]); (Variant "burn"%string [(Field (Some "id"%string) 43%N (Some "T::AssetId"%string) []); (Field (Some "who"%string) 157%N (Some "<T::Lookup as StaticLookup>::Source"%string) []); (Field (Some "amount"%string) 48%N (Some "T::Balance"%string) [])] 4%N ["Reduce the balance of `who` by as much as possible up to `amount` assets of `id`."%string; ""%string; "Origin must be Signed and the sender should be the Manager of the asset `id`."%string; ""%string; "Bails with `NoAccount` if the `who` is already dead."%string; ""%string; "- `id`: The identifier of the asset to have some amount burned."%string; "- `who`: The account to be debited from."%string; "- `amount`: The maximum amount by which `who`'s balance should be reduced."%string; ""%string; "Emits `Burned` with the actual amount burned. If this takes the balance to below the"%string; "minimum for the asset, then the amount burned is increased to take it to zero."%string; ""%string; "Weight: `O(1)`"%string; "Modes: Post-existence of `who`; Pre & post Zombie-status of `who`."%string]); (Variant "transfer"%string [(Field (Some "id"%string) 43%N (Some "T::AssetId"%string) []); (Field (Some "target"%string) 157%N (Some "<T::Lookup as StaticLookup>::Source"%string) []); (Field (Some "amount"%string) 48%N (Some "T::Balance"%string) [])] 5%N ["Move some assets from the sender account to another."%string; ""%string; "Origin must be Signed."%string; ""%string; "- `id`: The identifier of the asset to have some amount transferred."%string; "- `target`: The account to be credited."%string; "- `amount`: The amount by which the sender's balance of assets should be reduced and"%string; "`target`'s balance increased. The amount actually transferred may be slightly greater in"%string; "the case that the transfer would otherwise take the sender balance above zero but below"%string; "the minimum balance. Must be greater than zero."%string; ""%string; "Emits `Transferred` with the actual amount transferred. If this takes the source balance"%string; "to below the minimum for the asset, then the amount transferred is increased to take it"%string; "to zero."%string; ""%string; "Weight: `O(1)`"%string; "Modes: Pre-existence of `target`; Post-existence of sender; Account pre-existence of"%string; "`target`."%string]); (Variant "transfer_keep_alive"%string [(Field (Some "id"%string) 43%N (Some "T::AssetId"%string) []); (Field (Some "target"%string) 157%N (Some "<T::Lookup as StaticLookup>::Source"%string) []); (Field (Some "amount"%string) 48%N (Some "T::Balance"%string) [])] 6%N ["Move some assets from the sender account to another, keeping the sender account alive."%string; ""%string; "Origin must be Signed."%string; ""%string; "- `id`: The identifier of the asset to have some amount transferred."%string; "- `target`: The account to be credited."%string; "- `amount`: The amount by which the sender's balance of assets should be reduced and"%string; "`target`'s balance increased. The amount actually transferred may be slightly greater in"%string; "the case that the transfer would otherwise take the sender balance above zero but below"%string; "the minimum balance. Must be greater than zero."%string; ""%string; "Emits `Transferred` with the actual amount transferred. If this takes the source balance"%string; "to below the minimum for the asset, then the amount transferred is increased to take it"%string; "to zero."%string; ""%string; "Weight: `O(1)`"%string; "Modes: Pre-existence of `target`; Post-existence of sender; Account pre-existence of"%string; "`target`."%string]); (Variant "force_transfer"%string [(Field (Some "id"%string) 43%N (Some "T::AssetId"%string) []); (Field (Some "source"%string) 157%N (Some "<T::Lookup as StaticLookup>::Source"%string) []); (Field (Some "dest"%string) 157%N (Some "<T::Lookup as StaticLookup>::Source"%string) []); (Field (Some "amount"%string) 48%N (Some "T::Balance"%string) [])] 7%N ["Move some assets from one account to another."%string; ""%string; "Origin must be Signed and the sender should be the Admin of the asset `id`."%string; ""%string; "- `id`: The identifier of the asset to have some amount transferred."%string; "- `source`: The account to be debited."%string; "- `dest`: The account to be credited."%string; "- `amount`: The amount by which the `source`'s balance of assets should be reduced and"%string; "`dest`'s balance increased. The amount actually transferred may be slightly greater in"%string; "the case that the transfer would otherwise take the `source` balance above zero but"%string; "below the minimum balance. Must be greater than zero."%string; ""%string; "Emits `Transferred` with the actual amount transferred. If this takes the source balance"%string; "to below the minimum for the asset, then the amount transferred is increased to take it"%string; "to zero."%string; ""%string; "Weight: `O(1)`"%string; "Modes: Pre-existence of `dest`; Post-existence of `source`; Account pre-existence of"%string; "`dest`."%string]); (Variant "freeze"%string [(Field (Some "id"%string) 43%N (Some "T::AssetId"%string) []); (Field (Some "who"%string) 157%N (Some "<T::Lookup as StaticLookup>::Source"%string) [])] 8%N ["Disallow further unprivileged transfers from an account."%string; ""%string; "Origin must be Signed and the sender should be the Freezer of the asset `id`."%string; ""%string; "- `id`: The identifier of the asset to be frozen."%string; "- `who`: The account to be frozen."%string; ""%string; "Emits `Frozen`."%string; ""%string; "Weight: `O(1)`"%string]); (Variant "thaw"%string [(Field (Some "id"%string) 43%N (Some "T::AssetId"%string) []); (Field (Some "who"%string) 157%N (Some "<T::Lookup as StaticLookup>::Source"%string) [])] 9%N ["Allow unprivileged transfers from an account again."%string; ""%string; "Origin must be Signed and the sender should be the Admin of the asset `id`."%string; ""%string; "- `id`: The identifier of the asset to be frozen."%string; "- `who`: The account to be unfrozen."%string; ""%string; "Emits `Thawed`."%string; ""%string; "Weight: `O(1)`"%string]); (Variant "freeze_asset"%string [(Field (Some "id"%string) 43%N (Some "T::AssetId"%string) [])] 10%N ["Disallow further unprivileged transfers for the asset class."%string; ""%string; "Origin must be Signed and the sender should be the Freezer of the asset `id`."%string; ""%string; "- `id`: The identifier of the asset to be frozen."%string; ""%string; "Emits `Frozen`."%string; ""%string; "Weight: `O(1)`"%string]); (Variant "thaw_asset"%string [(Field (Some "id"%string) 43%N (Some "T::AssetId"%string) [])] 11%N ["Allow unprivileged transfers for the asset again."%string; ""%string; "Origin must be Signed and the sender should be the Admin of the asset `id`."%string; ""%string; "- `id`: The identifier of the asset to be thawed."%string; ""%string; "Emits `Thawed`."%string; ""%string; "Weight: `O(1)`"%string]); (Variant "transfer_ownership"%string [(Field (Some "id"%string) 43%N (Some "T::AssetId"%string) []); (Field (Some "owner"%string) 157%N (Some "<T::Lookup as StaticLookup>::Source"%string) [])] 12%N ["Change the Owner of an asset."%string; ""%string; "Origin must be Signed and the sender should be the Owner of the asset `id`."%string; ""%string; "- `id`: The identifier of the asset."%string; "- `owner`: The new Owner of this asset."%string; ""%string; "Emits `OwnerChanged`."%string; ""%string; "Weight: `O(1)`"%string]); (Variant "set_team"%string [(Field (Some "id"%string) 43%N (Some "T::AssetId"%string) []); (Field (Some "issuer"%string) 157%N (Some "<T::Lookup as StaticLookup>::Source"%string) []); (Field (Some "admin"%string) 157%N (Some "<T::Lookup as StaticLookup>::Source"%string) []); (Field (Some "freezer"%string) 157%N (Some "<T::Lookup as StaticLookup>::Source"%string) [])] 13%N ["Change the Issuer, Admin and Freezer of an asset."%string; ""%string; "Origin must be Signed and the sender should be the Owner of the asset `id`."%string; ""%string; "- `id`: The identifier of the asset to be frozen."%string; "- `issuer`: The new Issuer of this asset."%string; "- `admin`: The new Admin of this asset."%string; "- `freezer`: The new Freezer of this asset."%string; ""%string; "Emits `TeamChanged`."%string; ""%string; "Weight: `O(1)`"%string]); (Variant "set_metadata"%string [(Field (Some "id"%string) 43%N (Some "T::AssetId"%string) []); (Field (Some "name"%string) 10%N (Some "Vec<u8>"%string) []); (Field (Some "symbol"%string) 10%N (Some "Vec<u8>"%string) []); (Field (Some "decimals"%string) 2%N (Some "u8"%string) [])] 14%N ["Set the metadata for an asset."%string; ""%string; "Origin must be Signed and the sender should be the Owner of the asset `id`."%string; ""%string; "Funds of sender are reserved according to the formula:"%string; "`MetadataDepositBase + MetadataDepositPerByte * (name.len + symbol.len)` taking into"%string; "account any already reserved funds."%string; ""%string; "- `id`: The identifier of the asset to update."%string; "- `name`: The user friendly name of this asset. Limited in length by `StringLimit`."%string; "- `symbol`: The exchange symbol for this asset. Limited in length by `StringLimit`."%string; "- `decimals`: The number of decimals this asset uses to represent one unit."%string; ""%string; "Emits `MetadataSet`."%string; ""%string; "Weight: `O(1)`"%string]); (Variant "clear_metadata"%string [(Field (Some "id"%string) 43%N (Some "T::AssetId"%string) [])] 15%N ["Clear the metadata for an asset."%string; ""%string; "Origin must be Signed and the sender should be the Owner of the asset `id`."%string; ""%string; "Any deposit is freed for the asset owner."%string; ""%string; "- `id`: The identifier of the asset to clear."%string; ""%string; "Emits `MetadataCleared`."%string; ""%string; "Weight: `O(1)`"%string]); (Variant "force_set_metadata"%string [(Field (Some "id"%string) 43%N (Some "T::AssetId"%string) []); (Field (Some "name"%string) 10%N (Some "Vec<u8>"%string) []); (Field (Some "symbol"%string) 10%N (Some "Vec<u8>"%string) []); (Field (Some "decimals"%string) 2%N (Some "u8"%string) []); (Field (Some "is_frozen"%string) 89%N (Some "bool"%string) [])] 16%N ["Force the metadata for an asset to some value."%string; ""%string; "Origin must be ForceOrigin."%string; ""%string; "Any deposit is left alone."%string; ""%string; "- `id`: The identifier of the asset to update."%string; "- `name`: The user friendly name of this asset. Limited in length by `StringLimit`."%string; "- `symbol`: The exchange symbol for this asset. Limited in length by `StringLimit`."%string; "- `decimals`: The number of decimals this asset uses to represent one unit."%string; ""%string; "Emits `MetadataSet`."%string; ""%string; "Weight: `O(N + S)` where N and S are the length of the name and symbol respectively."%string]); (Variant "force_clear_metadata"%string [(Field (Some "id"%string) 43%N (Some "T::AssetId"%string) [])] 17%N ["Clear the metadata for an asset."%string; ""%string; "Origin must be ForceOrigin."%string; ""%string; "Any deposit is returned."%string; ""%string; "- `id`: The identifier of the asset to clear."%string; ""%string; "Emits `MetadataCleared`."%string; ""%string; "Weight: `O(1)`"%string]); (Variant "force_asset_status"%string [(Field (Some "id"%string) 43%N (Some "T::AssetId"%string) []); (Field (Some "owner"%string) 157%N (Some "<T::Lookup as StaticLookup>::Source"%string) []); (Field (Some "issuer"%string) 157%N (Some "<T::Lookup as StaticLookup>::Source"%string) []); (Field (Some "admin"%string) 157%N (Some "<T::Lookup as StaticLookup>::Source"%string) []); (Field (Some "freezer"%string) 157%N (Some "<T::Lookup as StaticLookup>::Source"%string) []); (Field (Some "min_balance"%string) 48%N (Some "T::Balance"%string) []); (Field (Some "is_sufficient"%string) 89%N (Some "bool"%string) []); (Field (Some "is_frozen"%string) 89%N (Some "bool"%string) [])] 18%N ["Alter the attributes of a given asset."%string; ""%string; "Origin must be `ForceOrigin`."%string; ""%string; "- `id`: The identifier of the asset."%string; "- `owner`: The new Owner of this asset."%string; "- `issuer`: The new Issuer of this asset."%string; "- `admin`: The new Admin of this asset."%string; "- `freezer`: The new Freezer of this asset."%string; "- `min_balance`: The minimum balance of this new asset that any single account must"%string; "have. If an account's balance is reduced below this, then it collapses to zero."%string; "- `is_sufficient`: Whether a non-zero balance of this asset is deposit of sufficient"%string; "value to account for the state bloat associated with its balance storage. If set to"%string; "`true`, then non-zero balances may be stored without a `consumer` reference (and thus"%string; "an ED in the Balances pallet or whatever else is used to control user-account state"%string; "growth)."%string; "- `is_frozen`: Whether this asset class is frozen except for permissioned/admin"%string; "instructions."%string; ""%string; "Emits `AssetStatusChanged` with the identity of the asset."%string; ""%string; "Weight: `O(1)`"%string]); (Variant "approve_transfer"%string [(Field (Some "id"%string) 43%N (Some "T::AssetId"%string) []); (Field (Some "delegate"%string) 157%N (Some "<T::Lookup as StaticLookup>::Source"%string) []); (Field (Some "amount"%string) 48%N (Some "T::Balance"%string) [])] 19%N ["Approve an amount of asset for transfer by a delegated third-party account."%string; ""%string; "Origin must be Signed."%string; ""%string; "Ensures that `ApprovalDeposit` worth of `Currency` is reserved from signing account"%string; "for the purpose of holding the approval. If some non-zero amount of assets is already"%string; "approved from signing account to `delegate`, then it is topped up or unreserved to"%string; "meet the right value."%string; ""%string; "NOTE: The signing account does not need to own `amount` of assets at the point of"%string; "making this call."%string; ""%string; "- `id`: The identifier of the asset."%string; "- `delegate`: The account to delegate permission to transfer asset."%string; "- `amount`: The amount of asset that may be transferred by `delegate`. If there is"%string; "already an approval in place, then this acts additively."%string; ""%string; "Emits `ApprovedTransfer` on success."%string; ""%string; "Weight: `O(1)`"%string]); (Variant "cancel_approval"%string [(Field (Some "id"%string) 43%N (Some "T::AssetId"%string) []); (Field (Some "delegate"%string) 157%N (Some "<T::Lookup as StaticLookup>::Source"%string) [])] 20%N ["Cancel all of some asset approved for delegated transfer by a third-party account."%string; ""%string; "Origin must be Signed and there must be an approval in place between signer and"%string; "`delegate`."%string; ""%string; "Unreserves any deposit previously reserved by `approve_transfer` for the approval."%string; ""%string; "- `id`: The identifier of the asset."%string; "- `delegate`: The account delegated permission to transfer asset."%string; ""%string; "Emits `ApprovalCancelled` on success."%string; ""%string; "Weight: `O(1)`"%string]); (Variant "force_cancel_approval"%string [(Field (Some "id"%string) 43%N (Some "T::AssetId"%string) []); (Field (Some "owner"%string) 157%N (Some "<T::Lookup as StaticLookup>::Source"%string) []); (Field (Some "delegate"%string) 157%N (Some "<T::Lookup as StaticLookup>::Source"%string) [])] 21%N ["Cancel all of some asset approved for delegated transfer by a third-party account."%string; ""%string; "Origin must be either ForceOrigin or Signed origin with the signer being the Admin"%string; "account of the asset `id`."%string; ""%string; "Unreserves any deposit previously reserved by `approve_transfer` for the approval."%string; ""%string; "- `id`: The identifier of the asset."%string; "- `delegate`: The account delegated permission to transfer asset."%string; ""%string; "Emits `ApprovalCancelled` on success."%string; ""%string; "Weight: `O(1)`"%string]); (Variant "transfer_approved"%string [(Field (Some "id"%string) 43%N (Some "T::AssetId"%string) []); (Field (Some "owner"%string) 157%N (Some "<T::Lookup as StaticLookup>::Source"%string) []); (Field (Some "destination"%string) 157%N (Some "<T::Lookup as StaticLookup>::Source"%string) []); (Field (Some "amount"%string) 48%N (Some "T::Balance"%string) [])] 22%N ["Transfer some asset balance from a previously delegated account to some third-party"%string; "account."%string; ""%string; "Origin must be Signed and there must be an approval in place by the `owner` to the"%string; "signer."%string; ""%string; "If the entire amount approved for transfer is transferred, then any deposit previously"%string; "reserved by `approve_transfer` is unreserved."%string; ""%string; "- `id`: The identifier of the asset."%string; "- `owner`: The account which previously approved for a transfer of at least `amount` and"%string; "from which the asset balance will be withdrawn."%string; "- `destination`: The account to which the asset balance of `amount` will be transferred."%string; "- `amount`: The amount of assets to transfer."%string; ""%string; "Emits `TransferredApproved` on success."%string; ""%string; "Weight: `O(1)`"%string]); (Variant "touch"%string [(Field (Some "id"%string) 43%N (Some "T::AssetId"%string) [])] 23%N ["Create an asset account for non-provider assets."%string; ""%string; "A deposit will be taken from the signer account."%string; ""%string; "- `origin`: Must be Signed; the signer account must have sufficient funds for a deposit"%string; "  to be taken."%string; "- `id`: The identifier of the asset for the account to be created."%string; ""%string; "Emits `Touched` event when successful."%string]); (Variant "refund"%string [(Field (Some "id"%string) 43%N (Some "T::AssetId"%string) []); (Field (Some "allow_burn"%string) 89%N (Some "bool"%string) [])] 24%N ["Return the deposit (if any) of an asset account."%string; ""%string; "The origin must be Signed."%string; ""%string; "- `id`: The identifier of the asset for the account to be created."%string; "- `allow_burn`: If `true` then assets may be destroyed in order to complete the refund."%string; ""%string; "Emits `Refunded` event when successful."%string])]) ["Contains one variant per dispatchable that can be called by an extrinsic."%string]).
Definition t256 : ty := (Ty ["pallet_assets"%string; "types"%string; "DestroyWitness"%string] [] (TComposite [(Field (Some "accounts"%string) 43%N (Some "u32"%string) []); (Field (Some "sufficients"%string) 43%N (Some "u32"%string) []); (Field (Some "approvals"%string) 43%N (Some "u32"%string) [])]) []).
Definition t257 : ty := (Ty ["pallet_uniques"%string; "pallet"%string; "Call"%string] [("T"%string,None); ("I"%string,None)] (TVariant [(Variant "create"%string [(Field (Some "collection"%string) 4%N (Some "T::CollectionId"%string) []); (Field (Some "admin"%string) 157%N (Some "<T::Lookup as StaticLookup>::Source"%string) [])] 0%N ["Issue a new collection of non-fungible items from a public origin."%string; ""%string; "This new collection has no items initially and its owner is the origin."%string; ""%string; "The origin must be Signed and the sender must have sufficient funds free."%string; ""%string; "`ItemDeposit` funds of sender are reserved."%string; ""%string; "Parameters:"%string; "- `collection`: The identifier of the new collection. This must not be currently in use."%string; "- `admin`: The admin of this collection. The admin is the initial address of each"%string; "member of the collection's admin team."%string; ""%string; "Emits `Created` event when successful."%string; ""%string; "Weight: `O(1)`"%string]); (Variant "force_create"%string [(Field (Some "collection"%string) 4%N (Some "T::CollectionId"%string) []); (Field (Some "owner"%string) 157%N (Some "<T::Lookup as StaticLookup>::Source"%string) []); (Field (Some "free_holding"%string) 89%N (Some "bool"%string) [])] 1%N ["Issue a new collection of non-fungible items from a privileged origin."%string; ""%string; "This new collection has no items initially."%string; ""%string; "The origin must conform to `ForceOrigin`."%string; ""%string; "Unlike `create`, no funds are reserved."%string; ""%string; "- `collection`: The identifier of the new item. This must not be currently in use."%string; "- `owner`: The owner of this collection of items. The owner has full superuser"%string; "  permissions"%string; "over this item, but may later change and configure the permissions using"%string; "`transfer_ownership` and `set_team`."%string; ""%string; "Emits `ForceCreated` event when successful."%string; ""%string; "Weight: `O(1)`"%string]); (Variant "destroy"%string [(Field (Some "collection"%string) 4%N (Some "T::CollectionId"%string) []); (Field (Some "witness"%string) 258%N (Some "DestroyWitness"%string) [])] 2%N ["Destroy a collection of fungible items."%string; ""%string; "The origin must conform to `ForceOrigin` or must be `Signed` and the sender must be the"%string; "owner of the `collection`."%string; ""%string; "- `collection`: The identifier of the collection to be destroyed."%string; "- `witness`: Information on the items minted in the collection. This must be"%string; "correct."%string; ""%string; "Emits `Destroyed` event when successful."%string; ""%string; "Weight: `O(n + m)` where:"%string; "- `n = witness.items`"%string; "- `m = witness.item_metadatas`"%string; "- `a = witness.attributes`"%string]); (Variant "mint"%string [(Field (Some "collection"%string) 4%N (Some "T::CollectionId"%string) []); (Field (Some "item"%string) 4%N (Some "T::ItemId"%string) []); (Field (Some "owner"%string) 157%N (Some "<T::Lookup as StaticLookup>::Source"%string) [])] 3%N ["Mint an item of a particular collection."%string; ""%string; "The origin must be Signed and the sender must be the Issuer of the `collection`."%string; ""%string; "- `collection`: The collection of the item to be minted."%string; "- `item`: The item value of the item to be minted."%string; "- `beneficiary`: The initial owner of the minted item."%string; ""%string; "Emits `Issued` event when successful."%string; ""%string; "Weight: `O(1)`"%string]); (Variant "burn"%string [(Field (Some "collection"%string) 4%N (Some "T::CollectionId"%string) []); (Field (Some "item"%string) 4%N (Some "T::ItemId"%string) []); (Field (Some "check_owner"%string) 259%N (Some "Option<<T::Lookup as StaticLookup>::Source>"%string) [])] 4%N ["Destroy a single item."%string; ""%string; "Origin must be Signed and the sender should be the Admin of the `collection`."%string; ""%string; "- `collection`: The collection of the item to be burned."%string; "- `item`: The item of the item to be burned."%string; "- `check_owner`: If `Some` then the operation will fail with `WrongOwner` unless the"%string; "  item is owned by this value."%string; ""%string; "Emits `Burned` with the actual amount burned."%string; ""%string; "Weight: `O(1)`"%string; "Modes: `check_owner.is_some()`."%string]); (Variant "transfer"%string [(Field (Some "collection"%string) 4%N (Some "T::CollectionId"%string) []); (Field (Some "item"%string) 4%N (Some "T::ItemId"%string) []); (Field (Some "dest"%string) 157%N (Some "<T::Lookup as StaticLookup>::Source"%string) [])] 5%N ["Move an item from the sender account to another."%string; ""%string; "Origin must be Signed and the signing account must be either:"%string; "- the Admin of the `collection`;"%string; "- the Owner of the `item`;"%string; "- the approved delegate for the `item` (in this case, the approval is reset)."%string; ""%string; "Arguments:"%string; "- `collection`: The collection of the item to be transferred."%string; "- `item`: The item of the item to be transferred."%string; "- `dest`: The account to receive ownership of the item."%string; ""%string; "Emits `Transferred`."%string; ""%string; "Weight: `O(1)`"%string]); (Variant "redeposit"%string [(Field (Some "collection"%string) 4%N (Some "T::CollectionId"%string) []); (Field (Some "items"%string) 92%N (Some "Vec<T::ItemId>"%string) [])] 6%N ["Reevaluate the deposits on some items."%string; ""%string; "Origin must be Signed and the sender should be the Owner of the `collection`."%string; ""%string; "- `collection`: The collection to be frozen."%string; "- `items`: The items of the collection whose deposits will be reevaluated."%string; ""%string; "NOTE: This exists as a best-effort function. Any items which are unknown or"%string; "in the case that the owner account does not have reservable funds to pay for a"%string; "deposit increase are ignored. Generally the owner isn't going to call this on items"%string; "whose existing deposit is less than the refreshed deposit as it would only cost them,"%string; "so it's of little consequence."%string; ""%string; "It will still return an error in the case that the collection is unknown of the signer"%string; "is not permitted to call it."%string; ""%string; "Weight: `O(items.len())`"%string]); (Variant "freeze"%string [(Field (Some "collection"%string) 4%N (Some "T::CollectionId"%string) []); (Field (Some "item"%string) 4%N (Some "T::ItemId"%string) [])] 7%N ["Disallow further unprivileged transfer of an item."%string; ""%string; "Origin must be Signed and the sender should be the Freezer of the `collection`."%string; ""%string; "- `collection`: The collection of the item to be frozen."%string; "- `item`: The item of the item to be frozen."%string; ""%string; "Emits `Frozen`."%string; ""%string; "Weight: `O(1)`"%string]); (Variant "thaw"%string [(Field (Some "collection"%string) 4%N (Some "T::CollectionId"%string) []); (Field (Some "item"%string) 4%N (Some "T::ItemId"%string) [])] 8%N ["Re-allow unprivileged transfer of an item."%string; ""%string; "Origin must be Signed and the sender should be the Freezer of the `collection`."%string; ""%string; "- `collection`: The collection of the item to be thawed."%string; "- `item`: The item of the item to be thawed."%string; ""%string; "Emits `Thawed`."%string; ""%string; "Weight: `O(1)`"%string]); (Variant "freeze_collection"%string [(Field (Some "collection"%string) 4%N (Some "T::CollectionId"%string) [])] 9%N ["Disallow further unprivileged transfers for a whole collection."%string; ""%string; "Origin must be Signed and the sender should be the Freezer of the `collection`."%string; ""%string; "- `collection`: The collection to be frozen."%string; ""%string; "Emits `CollectionFrozen`."%string; ""%string; "Weight: `O(1)`"%string]); (Variant "thaw_collection"%string [(Field (Some "collection"%string) 4%N (Some "T::CollectionId"%string) [])] 10%N ["Re-allow unprivileged transfers for a whole collection."%string; ""%string; "Origin must be Signed and the sender should be the Admin of the `collection`."%string; ""%string; "- `collection`: The collection to be thawed."%string; ""%string; "Emits `CollectionThawed`."%string; ""%string; "Weight: `O(1)`"%string]); (Variant "transfer_ownership"%string [(Field (Some "collection"%string) 4%N (Some "T::CollectionId"%string) []); (Field (Some "owner"%string) 157%N (Some "<T::Lookup as StaticLookup>::Source"%string) [])] 11%N ["Change the Owner of a collection."%string; ""%string; "Origin must be Signed and the sender should be the Owner of the `collection`."%string; ""%string; "- `collection`: The collection whose owner should be changed."%string; "- `owner`: The new Owner of this collection. They must have called"%string; "  `set_accept_ownership` with `collection` in order for this operation to succeed."%string; ""%string; "Emits `OwnerChanged`."%string; ""%string; "Weight: `O(1)`"%string]); (Variant "set_team"%string [(Field (Some "collection"%string) 4%N (Some "T::CollectionId"%string) []); (Field (Some "issuer"%string) 157%N (Some "<T::Lookup as StaticLookup>::Source"%string) []); (Field (Some "admin"%string) 157%N (Some "<T::Lookup as StaticLookup>::Source"%string) []); (Field (Some "freezer"%string) 157%N (Some "<T::Lookup as StaticLookup>::Source"%string) [])] 12%N ["Change the Issuer, Admin and Freezer of a collection."%string; ""%string; "Origin must be Signed and the sender should be the Owner of the `collection`."%string; ""%string; "- `collection`: The collection whose team should be changed."%string; "- `issuer`: The new Issuer of this collection."%string; "- `admin`: The new Admin of this collection."%string; "- `freezer`: The new Freezer of this collection."%string; ""%string; "Emits `TeamChanged`."%string; ""%string; "Weight: `O(1)`"%string]); (Variant "approve_transfer"%string [(Field (Some "collection"%string) 4%N (Some "T::CollectionId"%string) []); (Field (Some "item"%string) 4%N (Some "T::ItemId"%string) []); (Field (Some "delegate"%string) 157%N (Some "<T::Lookup as StaticLookup>::Source"%string) [])] 13%N ["Approve an item to be transferred by a delegated third-party account."%string; ""%string; "Origin must be Signed and must be the owner of the `item`."%string; ""%string; "- `collection`: The collection of the item to be approved for delegated transfer."%string; "- `item`: The item of the item to be approved for delegated transfer."%string; "- `delegate`: The account to delegate permission to transfer the item."%string; ""%string; "Emits `ApprovedTransfer` on success."%string; ""%string; "Weight: `O(1)`"%string]); (Variant "cancel_approval"%string [(Field (Some "collection"%string) 4%N (Some "T::CollectionId"%string) []); (Field (Some "item"%string) 4%N (Some "T::ItemId"%string) []); (Field (Some "maybe_check_delegate"%string) 259%N (Some "Option<<T::Lookup as StaticLookup>::Source>"%string) [])] 14%N ["Cancel the prior approval for the transfer of an item by a delegate."%string; ""%string; "Origin must be either:"%string; "- the `Force` origin;"%string; "- `Signed` with the signer being the Admin of the `collection`;"%string; "- `Signed` with the signer being the Owner of the `item`;"%string; ""%string; "Arguments:"%string; "- `collection`: The collection of the item of whose approval will be cancelled."%string; "- `item`: The item of the item of whose approval will be cancelled."%string; "- `maybe_check_delegate`: If `Some` will ensure that the given account is the one to"%string; "  which permission of transfer is delegated."%string; ""%string; "Emits `ApprovalCancelled` on success."%string; ""%string; "Weight: `O(1)`"%string]); (Variant "force_item_status"%string [(Field (Some "collection"%string) 4%N (Some "T::CollectionId"%string) []); (Field (Some "owner"%string) 157%N (Some "<T::Lookup as StaticLookup>::Source"%string) []); (Field (Some "issuer"%string) 157%N (Some "<T::Lookup as StaticLookup>::Source"%string) []); (Field (Some "admin"%string) 157%N (Some "<T::Lookup as StaticLookup>::Source"%string) []); (Field (Some "freezer"%string) 157%N (Some "<T::Lookup as StaticLookup>::Source"%string) []); (Field (Some "free_holding"%string) 89%N (Some "bool"%string) []); (Field (Some "is_frozen"%string) 89%N (Some "bool"%string) [])] 15%N ["Alter the attributes of a given item."%string; ""%string; "Origin must be `ForceOrigin`."%string; ""%string; "- `collection`: The identifier of the item."%string; "- `owner`: The new Owner of this item."%string; "- `issuer`: The new Issuer of this item."%string; "- `admin`: The new Admin of this item."%string; "- `freezer`: The new Freezer of this item."%string; "- `free_holding`: Whether a deposit is taken for holding an item of this collection."%string; "- `is_frozen`: Whether this collection is frozen except for permissioned/admin"%string; "instructions."%string; ""%string; "Emits `ItemStatusChanged` with the identity of the item."%string; ""%string; "Weight: `O(1)`"%string]); (Variant "set_attribute"%string [(Field (Some "collection"%string) 4%N (Some "T::CollectionId"%string) []); (Field (Some "maybe_item"%string) 93%N (Some "Option<T::ItemId>"%string) []); (Field (Some "key"%string) 94%N (Some "BoundedVec<u8, T::KeyLimit>"%string) []); (Field (Some "value"%string) 95%N (Some "BoundedVec<u8, T::ValueLimit>"%string) [])] 16%N ["Set an attribute for a collection or item."%string; ""%string; "Origin must be either `ForceOrigin` or Signed and the sender should be the Owner of the"%string; "`collection`."%string; ""%string; "If the origin is Signed, then funds of signer are reserved according to the formula:"%string; "`MetadataDepositBase + DepositPerByte * (key.len + value.len)` taking into"%string; "account any already reserved funds."%string; ""%string; "- `collection`: The identifier of the collection whose item's metadata to set."%string; "- `maybe_item`: The identifier of the item whose metadata to set."%string; "- `key`: The key of the attribute."%string; "- `value`: The value to which to set the attribute."%string; ""%string; "Emits `AttributeSet`."%string; ""%string; "Weight: `O(1)`"%string]); (Variant "clear_attribute"%string [(Field (Some "collection"%string) 4%N (Some "T::CollectionId"%string) []); (Field (Some "maybe_item"%string) 93%N (Some "Option<T::ItemId>"%string) []); (Field (Some "key"%string) 94%N (Some "BoundedVec<u8, T::KeyLimit>"%string) [])] 17%N ["Clear an attribute for a collection or item."%string; ""%string; "Origin must be either `ForceOrigin` or Signed and the sender should be the Owner of the"%string; "`collection`."%string; ""%string; "Any deposit is freed for the collection's owner."%string; ""%string; "- `collection`: The identifier of the collection whose item's metadata to clear."%string; "- `maybe_item`: The identifier of the item whose metadata to clear."%string; "- `key`: The key of the attribute."%string; ""%string; "Emits `AttributeCleared`."%string; ""%string; "Weight: `O(1)`"%string]); (Variant "set_metadata"%string [(Field (Some "collection"%string) 4%N (Some "T::CollectionId"%string) []); (Field (Some "item"%string) 4%N (Some "T::ItemId"%string) []); (Field (Some "data"%string) 91%N (Some "BoundedVec<u8, T::StringLimit>"%string) []); (Field (Some "is_frozen"%string) 89%N (Some "bool"%string) [])] 18%N ["Set the metadata for an item."%string; ""%string; "Origin must be either `ForceOrigin` or Signed and the sender should be the Owner of the"%string; "`collection`."%string; ""%string; "If the origin is Signed, then funds of signer are reserved according to the formula:"%string; "`MetadataDepositBase + DepositPerByte * data.len` taking into"%string; "account any already reserved funds."%string; ""%string; "- `collection`: The identifier of the collection whose item's metadata to set."%string; "- `item`: The identifier of the item whose metadata to set."%string; "- `data`: The general information of this item. Limited in length by `StringLimit`."%string; "- `is_frozen`: Whether the metadata should be frozen against further changes."%string; ""%string; "Emits `MetadataSet`."%string; ""%string; "Weight: `O(1)`"%string]); (Variant "clear_metadata"%string [(Field (Some "collection"%string) 4%N (Some "T::CollectionId"%string) []); (Field (Some "item"%string) 4%N (Some "T::ItemId"%string) [])] 19%N ["Clear the metadata for an item."%string; ""%string; "Origin must be either `ForceOrigin` or Signed and the sender should be the Owner of the"%string; "`item`."%string; ""%string; "Any deposit is freed for the collection's owner."%string; ""%string; "- `collection`: The identifier of the collection whose item's metadata to clear."%string; "- `item`: The identifier of the item whose metadata to clear."%string; ""%string; "Emits `MetadataCleared`."%string; ""%string; "Weight: `O(1)`"%string]); (Variant "set_collection_metadata"%string [(Field (Some "collection"%string) 4%N (Some "T::CollectionId"%string) []); (Field (Some "data"%string) 91%N (Some "BoundedVec<u8, T::StringLimit>"%string) []); (Field (Some "is_frozen"%string) 89%N (Some "bool"%string) [])] 20%N ["Set the metadata for a collection."%string; ""%string; "Origin must be either `ForceOrigin` or `Signed` and the sender should be the Owner of"%string; "the `collection`."%string; ""%string; "If the origin is `Signed`, then funds of signer are reserved according to the formula:"%string; "`MetadataDepositBase + DepositPerByte * data.len` taking into"%string; "account any already reserved funds."%string; ""%string; "- `collection`: The identifier of the item whose metadata to update."%string; "- `data`: The general information of this item. Limited in length by `StringLimit`."%string; "- `is_frozen`: Whether the metadata should be frozen against further changes."%string; ""%string; "Emits `CollectionMetadataSet`."%string; ""%string; "Weight: `O(1)`"%string]); (Variant "clear_collection_metadata"%string [(Field (Some "collection"%string) 4%N (Some "T::CollectionId"%string) [])] 21%N ["Clear the metadata for a collection."%string; ""%string; "Origin must be either `ForceOrigin` or `Signed` and the sender should be the Owner of"%string; "the `collection`."%string; ""%string; "Any deposit is freed for the collection's owner."%string; ""%string; "- `collection`: The identifier of the collection whose metadata to clear."%string; ""%string; "Emits `CollectionMetadataCleared`."%string; ""%string; "Weight: `O(1)`"%string]); (Variant "set_accept_ownership"%string [(Field (Some "maybe_collection"%string) 93%N (Some "Option<T::CollectionId>"%string) [])] 22%N ["Set (or reset) the acceptance of ownership for a particular account."%string; ""%string; "Origin must be `Signed` and if `maybe_collection` is `Some`, then the signer must have a"%string; "provider reference."%string; ""%string; "- `maybe_collection`: The identifier of the collection whose ownership the signer is"%string; "  willing to accept, or if `None`, an indication that the signer is willing to accept no"%string; "  ownership transferal."%string; ""%string; "Emits `OwnershipAcceptanceChanged`."%string]); (Variant "set_collection_max_supply"%string [(Field (Some "collection"%string) 4%N (Some "T::CollectionId"%string) []); (Field (Some "max_supply"%string) 4%N (Some "u32"%string) [])] 23%N ["Set the maximum amount of items a collection could have."%string; ""%string; "Origin must be either `ForceOrigin` or `Signed` and the sender should be the Owner of"%string; "the `collection`."%string; ""%string; "Note: This function can only succeed once per collection."%string; ""%string; "- `collection`: The identifier of the collection to change."%string; "- `max_supply`: The maximum amount of items a collection could have."%string; ""%string; "Emits `CollectionMaxSupplySet` event when successful."%string]); (Variant "set_price"%string [(Field (Some "collection"%string) 4%N (Some "T::CollectionId"%string) []); (Field (Some "item"%string) 4%N (Some "T::ItemId"%string) []); (Field (Some "price"%string) 260%N (Some "Option<ItemPrice<T, I>>"%string) []); (Field (Some "whitelisted_buyer"%string) 259%N (Some "Option<<T::Lookup as StaticLookup>::Source>"%string) [])] 24%N ["Set (or reset) the price for an item."%string; ""%string; "Origin must be Signed and must be the owner of the asset `item`."%string; ""%string; "- `collection`: The collection of the item."%string; "- `item`: The item to set the price for."%string; "- `price`: The price for the item. Pass `None`, to reset the price."%string; "- `buyer`: Restricts the buy operation to a specific account."%string; ""%string; "Emits `ItemPriceSet` on success if the price is not `None`."%string; "Emits `ItemPriceRemoved` on success if the price is `None`."%string]); (Variant "buy_item"%string [(Field (Some "collection"%string) 4%N (Some "T::CollectionId"%string) []); (Field (Some "item"%string) 4%N (Some "T::ItemId"%string) []); (Field (Some "bid_price"%string) 6%N (Some "ItemPrice<T, I>"%string) [])] 25%N ["Allows to buy an item if it's up for sale."%string; ""%string; "Origin must be Signed and must not be the owner of the `item`."%string; ""%string; "- `collection`: The collection of the item."%string; "- `item`: The item the sender wants to buy."%string; "- `bid_price`: The price the sender is willing to pay."%string; ""%string; "Emits `ItemBought` on success."%string])]) ["Contains one variant per dispatchable that can be called by an extrinsic."%string]).
Definition t258 : ty := (Ty ["pallet_uniques"%string; "types"%string; "DestroyWitness"%string] [] (TComposite [(Field (Some "items"%string) 43%N (Some "u32"%string) []); (Field (Some "item_metadatas"%string) 43%N (Some "u32"%string) []); (Field (Some "attributes"%string) 43%N (Some "u32"%string) [])]) []).
Definition t259 : ty := (Ty ["Option"%string] [("T"%string,(Some 157%N))] (TVariant [(Variant "None"%string [] 0%N []); (Variant "Some"%string [(Field None 157%N None [])] 1%N [])]) []).
Definition t260 : ty := (Ty ["Option"%string] [("T"%string,(Some 6%N))] (TVariant [(Variant "None"%string [] 0%N []); (Variant "Some"%string [(Field None 6%N None [])] 1%N [])]) []).
Definition t261 : ty := (Ty ["westmint_runtime"%string; "OriginCaller"%string] [] (TVariant [(Variant "system"%string [(Field None 262%N (Some "frame_system::Origin<Runtime>"%string) [])] 0%N []); (Variant "PolkadotXcm"%string [(Field None 263%N (Some "pallet_xcm::Origin"%string) [])] 31%N []); (Variant "CumulusXcm"%string [(Field None 264%N (Some "cumulus_pallet_xcm::Origin"%string) [])] 32%N []); (Variant "Void"%string [(Field None 265%N (Some "self::sp_api_hidden_includes_construct_runtime::hidden_include::Void"%string) [])] 3%N [])]) []).
Definition t262 : ty := (Ty ["frame_support"%string; "dispatch"%string; "RawOrigin"%string] [("AccountId"%string,(Some 0%N))] (TVariant [(Variant "Root"%string [] 0%N []); (Variant "Signed"%string [(Field None 0%N (Some "AccountId"%string) [])] 1%N []); (Variant "None"%string [] 2%N [])]) []).
Definition t263 : ty := (Ty ["pallet_xcm"%string; "pallet"%string; "Origin"%string] [] (TVariant [(Variant "Xcm"%string [(Field None 40%N (Some "MultiLocation"%string) [])] 0%N []); (Variant "Response"%string [(Field None 40%N (Some "MultiLocation"%string) [])] 1%N [])]) []).
Definition t264 : ty := (Ty ["cumulus_pallet_xcm"%string; "pallet"%string; "Origin"%string] [] (TVariant [(Variant "Relay"%string [] 0%N []); (Variant "SiblingParachain"%string [(Field None 37%N (Some "ParaId"%string) [])] 1%N [])]) []).
Definition t265 : ty := (Ty ["sp_core"%string; "Void"%string] [] (TVariant []) []).
Definition t266 : ty := (Ty ["pallet_utility"%string; "pallet"%string; "Error"%string] [("T"%string,None)] (TVariant [(Variant "TooManyCalls"%string [] 0%N ["Too many calls batched."%string])]) ["
			Custom [dispatch errors](https://docs.substrate.io/v3/runtime/events-and-errors)
			of this pallet.
			"%string]).
Definition t267 : ty := (Ty [] [] (TTuple [0%N; 1%N]) []).
Definition t268 : ty := (Ty ["pallet_multisig"%string; "Multisig"%string] [("BlockNumber"%string,(Some 4%N)); ("Balance"%string,(Some 6%N)); ("AccountId"%string,(Some 0%N))] (TComposite [(Field (Some "when"%string) 84%N (Some "Timepoint<BlockNumber>"%string) []); (Field (Some "deposit"%string) 6%N (Some "Balance"%string) []); (Field (Some "depositor"%string) 0%N (Some "AccountId"%string) []); (Field (Some "approvals"%string) 32%N (Some "Vec<AccountId>"%string) [])]) []).
Definition t269 : ty := (Ty [] [] (TTuple [252%N; 0%N; 6%N]) []).
Definition t270 : ty := (Ty ["pallet_multisig"%string; "pallet"%string; "Error"%string] [("T"%string,None)] (TVariant [(Variant "MinimumThreshold"%string [] 0%N ["Threshold must be 2 or greater."%string]); (Variant "AlreadyApproved"%string [] 1%N ["Call is already approved by this signatory."%string]); (Variant "NoApprovalsNeeded"%string [] 2%N ["Call doesn't need any (more) approvals."%string]); (Variant "TooFewSignatories"%string [] 3%N ["There are too few signatories in the list."%string]); (Variant "TooManySignatories"%string [] 4%N ["There are too many signatories in the list."%string]); (Variant "SignatoriesOutOfOrder"%string [] 5%N ["The signatories were provided out of order; they should be ordered."%string]); (Variant "SenderInSignatories"%string [] 6%N ["The sender was contained in the other signatories; it shouldn't be."%string]); (Variant "NotFound"%string [] 7%N ["Multisig operation not found when attempting to cancel."%string]); (Variant "NotOwner"%string [] 8%N ["Only the account that originally created the multisig is able to cancel it."%string]); (Variant "NoTimepoint"%string [] 9%N ["No timepoint was given, yet the multisig operation is already underway."%string]); (Variant "WrongTimepoint"%string [] 10%N ["A different timepoint was given to the multisig operation that is underway."%string]); (Variant "UnexpectedTimepoint"%string [] 11%N ["A timepoint was given, yet no multisig operation is underway."%string]); (Variant "MaxWeightTooLow"%string [] 12%N ["The maximum weight information provided was too low."%string]); (Variant "AlreadyStored"%string [] 13%N ["The data to be stored is already stored."%string])]) ["
			Custom [dispatch errors](https://docs.substrate.io/v3/runtime/events-and-errors)
			of this pallet.
			"%string]).
Definition t271 : ty := (Ty [] [] (TTuple [272%N; 6%N]) []).
Definition t272 : ty := (Ty ["sp_runtime"%string; "bounded"%string; "bounded_vec"%string; "BoundedVec"%string] [("T"%string,(Some 273%N)); ("S"%string,None)] (TComposite [(Field None 274%N (Some "Vec<T>"%string) [])]) []).
Definition t273 : ty := (Ty ["pallet_proxy"%string; "ProxyDefinition"%string] [("AccountId"%string,(Some 0%N)); ("ProxyType"%string,(Some 86%N)); ("BlockNumber"%string,(Some 4%N))] (TComposite [(Field (Some "delegate"%string) 0%N (Some "AccountId"%string) []); (Field (Some "proxy_type"%string) 86%N (Some "ProxyType"%string) []); (Field (Some "delay"%string) 4%N (Some "BlockNumber"%string) [])]) []).
Definition t274 : ty := (Ty [] [] (TSequence 273%N) []).
Definition t275 : ty := (Ty [] [] (TTuple [276%N; 6%N]) []).
Definition t276 : ty := (Ty ["sp_runtime"%string; "bounded"%string; "bounded_vec"%string; "BoundedVec"%string] [("T"%string,(Some 277%N)); ("S"%string,None)] (TComposite [(Field None 278%N (Some "Vec<T>"%string) [])]) []).
Definition t277 : ty := (Ty ["pallet_proxy"%string; "Announcement"%string] [("AccountId"%string,(Some 0%N)); ("Hash"%string,(Some 9%N)); ("BlockNumber"%string,(Some 4%N))] (TComposite [(Field (Some "real"%string) 0%N (Some "AccountId"%string) []); (Field (Some "call_hash"%string) 9%N (Some "Hash"%string) []); (Field (Some "height"%string) 4%N (Some "BlockNumber"%string) [])]) []).
Definition t278 : ty := (Ty [] [] (TSequence 277%N) []).
Definition t279 : ty := (Ty ["pallet_proxy"%string; "pallet"%string; "Error"%string] [("T"%string,None)] (TVariant [(Variant "TooMany"%string [] 0%N ["There are too many proxies registered or too many announcements pending."%string]); (Variant "NotFound"%string [] 1%N ["Proxy registration not found."%string]); (Variant "NotProxy"%string [] 2%N ["Sender is not a proxy of the account to be proxied."%string]); (Variant "Unproxyable"%string [] 3%N ["A call which is incompatible with the proxy type's filter was attempted."%string]); (Variant "Duplicate"%string [] 4%N ["Account is already a proxy."%string]); (Variant "NoPermission"%string [] 5%N ["Call may not be made by proxy because it may escalate its privileges."%string]); (Variant "Unannounced"%string [] 6%N ["Announcement, if made at all, was made too recently."%string]); (Variant "NoSelfProxy"%string [] 7%N ["Cannot add self as proxy."%string])]) ["
			Custom [dispatch errors](https://docs.substrate.io/v3/runtime/events-and-errors)
			of this pallet.
			"%string]).
Definition t280 : ty := (Ty ["pallet_assets"%string; "types"%string; "AssetDetails"%string] [("Balance"%string,(Some 6%N)); ("AccountId"%string,(Some 0%N)); ("DepositBalance"%string,(Some 6%N))] (TComposite [(Field (Some "owner"%string) 0%N (Some "AccountId"%string) []); (Field (Some "issuer"%string) 0%N (Some "AccountId"%string) []); (Field (Some "admin"%string) 0%N (Some "AccountId"%string) []); (Field (Some "freezer"%string) 0%N (Some "AccountId"%string) []); (Field (Some "supply"%string) 6%N (Some "Balance"%string) []); (Field (Some "deposit"%string) 6%N (Some "DepositBalance"%string) []); (Field (Some "min_balance"%string) 6%N (Some "Balance"%string) []); (Field (Some "is_sufficient"%string) 89%N (Some "bool"%string) []); (Field (Some "accounts"%string) 4%N (Some "u32"%string) []); (Field (Some "sufficients"%string) 4%N (Some "u32"%string) []); (Field (Some "approvals"%string) 4%N (Some "u32"%string) []); (Field (Some "is_frozen"%string) 89%N (Some "bool"%string) [])]) []).
Definition t281 : ty := (Ty [] [] (TTuple [4%N; 0%N]) []).
Definition t282 : ty := (Ty ["pallet_assets"%string; "types"%string; "AssetAccount"%string] [("Balance"%string,(Some 6%N)); ("DepositBalance"%string,(Some 6%N)); ("Extra"%string,(Some 82%N))] (TComposite [(Field (Some "balance"%string) 6%N (Some "Balance"%string) []); (Field (Some "is_frozen"%string) 89%N (Some "bool"%string) []); (Field (Some "reason"%string) 283%N (Some "ExistenceReason<DepositBalance>"%string) []); (Field (Some "extra"%string) 82%N (Some "Extra"%string) [])]) []).
Definition t283 : ty := (Ty ["pallet_assets"%string; "types"%string; "ExistenceReason"%string] [("Balance"%string,(Some 6%N))] (TVariant [(Variant "Consumer"%string [] 0%N []); (Variant "Sufficient"%string [] 1%N []); (Variant "DepositHeld"%string [(Field None 6%N (Some "Balance"%string) [])] 2%N []); (Variant "DepositRefunded"%string [] 3%N [])]) []).
Definition t284 : ty := (Ty [] [] (TTuple [4%N; 0%N; 0%N]) []).
Definition t285 : ty := (Ty ["pallet_assets"%string; "types"%string; "Approval"%string] [("Balance"%string,(Some 6%N)); ("DepositBalance"%string,(Some 6%N))] (TComposite [(Field (Some "amount"%string) 6%N (Some "Balance"%string) []); (Field (Some "deposit"%string) 6%N (Some "DepositBalance"%string) [])]) []).
Definition t286 : ty := (Ty ["pallet_assets"%string; "types"%string; "AssetMetadata"%string] [("DepositBalance"%string,(Some 6%N)); ("BoundedString"%string,(Some 287%N))] (TComposite [(Field (Some "deposit"%string) 6%N (Some "DepositBalance"%string) []); (Field (Some "name"%string) 287%N (Some "BoundedString"%string) []); (Field (Some "symbol"%string) 287%N (Some "BoundedString"%string) []); (Field (Some "decimals"%string) 2%N (Some "u8"%string) []); (Field (Some "is_frozen"%string) 89%N (Some "bool"%string) [])]) []).
Definition t287 : ty := (Ty ["sp_runtime"%string; "bounded"%string; "bounded_vec"%string; "BoundedVec"%string] [("T"%string,(Some 2%N)); ("S"%string,None)] (TComposite [(Field None 10%N (Some "Vec<T>"%string) [])]) []).
Definition t288 : ty := (Ty ["pallet_assets"%string; "pallet"%string; "Error"%string] [("T"%string,None); ("I"%string,None)] (TVariant [(Variant "BalanceLow"%string [] 0%N ["Account balance must be greater than or equal to the transfer amount."%string]); (Variant "NoAccount"%string [] 1%N ["The account to alter does not exist."%string]); (Variant "NoPermission"%string [] 2%N ["The signing account has no permission to do the operation."%string]); (Variant "Unknown"%string [] 3%N ["The given asset ID is unknown."%string]); (Variant "Frozen"%string [] 4%N ["The origin account is frozen."%string]); (Variant "InUse"%string [] 5%N ["The asset ID is already taken."%string]); (Variant "BadWitness"%string [] 6%N ["Invalid witness data given."%string]); (Variant "MinBalanceZero"%string [] 7%N ["Minimum balance should be non-zero."%string]); (Variant "NoProvider"%string [] 8%N ["Unable to increment the consumer reference counters on the account. Either no provider"%string; "reference exists to allow a non-zero balance of a non-self-sufficient asset, or the"%string; "maximum number of consumers has been reached."%string]); (Variant "BadMetadata"%string [] 9%N ["Invalid metadata given."%string]); (Variant "Unapproved"%string [] 10%N ["No approval exists that would allow the transfer."%string]); (Variant "WouldDie"%string [] 11%N ["The source account would not survive the transfer and it needs to stay alive."%string]); (Variant "AlreadyExists"%string [] 12%N ["The asset-account already exists."%string]); (Variant "NoDeposit"%string [] 13%N ["The asset-account doesn't have an associated deposit."%string]); (Variant "WouldBurn"%string [] 14%N ["The operation would result in funds being burned."%string])]) ["
			Custom [dispatch errors](https://docs.substrate.io/v3/runtime/events-and-errors)
			of this pallet.
			"%string]).
Definition t289 : ty := (Ty ["pallet_uniques"%string; "types"%string; "CollectionDetails"%string] [("AccountId"%string,(Some 0%N)); ("DepositBalance"%string,(Some 6%N))] (TComposite [(Field (Some "owner"%string) 0%N (Some "AccountId"%string) []); (Field (Some "issuer"%string) 0%N (Some "AccountId"%string) []); (Field (Some "admin"%string) 0%N (Some "AccountId"%string) []); (Field (Some "freezer"%string) 0%N (Some "AccountId"%string) []); (Field (Some "total_deposit"%string) 6%N (Some "DepositBalance"%string) []); (Field (Some "free_holding"%string) 89%N (Some "bool"%string) []); (Field (Some "items"%string) 4%N (Some "u32"%string) []); (Field (Some "item_metadatas"%string) 4%N (Some "u32"%string) []); (Field (Some "attributes"%string) 4%N (Some "u32"%string) []); (Field (Some "is_frozen"%string) 89%N (Some "bool"%string) [])]) []).
Definition t290 : ty := (Ty [] [] (TTuple [0%N; 4%N; 4%N]) []).
Definition t291 : ty := (Ty [] [] (TTuple [0%N; 4%N]) []).
Definition t292 : ty := (Ty ["pallet_uniques"%string; "types"%string; "ItemDetails"%string] [("AccountId"%string,(Some 0%N)); ("DepositBalance"%string,(Some 6%N))] (TComposite [(Field (Some "owner"%string) 0%N (Some "AccountId"%string) []); (Field (Some "approved"%string) 96%N (Some "Option<AccountId>"%string) []); (Field (Some "is_frozen"%string) 89%N (Some "bool"%string) []); (Field (Some "deposit"%string) 6%N (Some "DepositBalance"%string) [])]) []).
Definition t293 : ty := (Ty ["pallet_uniques"%string; "types"%string; "CollectionMetadata"%string] [("DepositBalance"%string,(Some 6%N)); ("StringLimit"%string,None)] (TComposite [(Field (Some "deposit"%string) 6%N (Some "DepositBalance"%string) []); (Field (Some "data"%string) 91%N (Some "BoundedVec<u8, StringLimit>"%string) []); (Field (Some "is_frozen"%string) 89%N (Some "bool"%string) [])]) []).
Definition t294 : ty := (Ty ["pallet_uniques"%string; "types"%string; "ItemMetadata"%string] [("DepositBalance"%string,(Some 6%N)); ("StringLimit"%string,None)] (TComposite [(Field (Some "deposit"%string) 6%N (Some "DepositBalance"%string) []); (Field (Some "data"%string) 91%N (Some "BoundedVec<u8, StringLimit>"%string) []); (Field (Some "is_frozen"%string) 89%N (Some "bool"%string) [])]) []).
Definition t295 : ty := (Ty [] [] (TTuple [4%N; 93%N; 94%N]) []).
Definition t296 : ty := (Ty [] [] (TTuple [95%N; 6%N]) []).
Definition t297 : ty := (Ty [] [] (TTuple [6%N; 96%N]) []).
Definition t298 : ty := (Ty ["pallet_uniques"%string; "pallet"%string; "Error"%string] [("T"%string,None); ("I"%string,None)] (TVariant [(Variant "NoPermission"%string [] 0%N ["The signing account has no permission to do the operation."%string]); (Variant "UnknownCollection"%string [] 1%N ["The given item ID is unknown."%string]); (Variant "AlreadyExists"%string [] 2%N ["The item ID has already been used for an item."%string]); (Variant "WrongOwner"%string [] 3%N ["The owner turned out to be different to what was expected."%string]); (Variant "BadWitness"%string [] 4%N ["Invalid witness data given."%string]); (Variant "InUse"%string [] 5%N ["The item ID is already taken."%string]); (Variant "Frozen"%string [] 6%N ["The item or collection is frozen."%string]); (Variant "WrongDelegate"%string [] 7%N ["The delegate turned out to be different to what was expected."%string]); (Variant "NoDelegate"%string [] 8%N ["There is no delegate approved."%string]); (Variant "Unapproved"%string [] 9%N ["No approval exists that would allow the transfer."%string]); (Variant "Unaccepted"%string [] 10%N ["The named owner has not signed ownership of the collection is acceptable."%string]); (Variant "Locked"%string [] 11%N ["The item is locked."%string]); (Variant "MaxSupplyReached"%string [] 12%N ["All items have been minted."%string]); (Variant "MaxSupplyAlreadySet"%string [] 13%N ["The max supply has already been set."%string]); (Variant "MaxSupplyTooSmall"%string [] 14%N ["The provided max supply is less to the amount of items a collection already has."%string]); (Variant "UnknownItem"%string [] 15%N ["The given item ID is unknown."%string]); (Variant "NotForSale"%string [] 16%N ["Item is not for sale."%string]); (Variant "BidTooLow"%string [] 17%N ["The provided bid is too low."%string])]) ["
			Custom [dispatch errors](https://docs.substrate.io/v3/runtime/events-and-errors)
			of this pallet.
			"%string]).
Definition t299 : ty := (Ty ["sp_runtime"%string; "generic"%string; "unchecked_extrinsic"%string; "UncheckedExtrinsic"%string] [("Address"%string,(Some 157%N)); ("Call"%string,(Some 249%N)); ("Signature"%string,(Some 300%N)); ("Extra"%string,(Some 306%N))] (TComposite [(Field None 10%N None [])]) []).
Definition t300 : ty := (Ty ["sp_runtime"%string; "MultiSignature"%string] [] (TVariant [(Variant "Ed25519"%string [(Field None 301%N (Some "ed25519::Signature"%string) [])] 0%N []); (Variant "Sr25519"%string [(Field None 303%N (Some "sr25519::Signature"%string) [])] 1%N []); (Variant "Ecdsa"%string [(Field None 304%N (Some "ecdsa::Signature"%string) [])] 2%N [])]) []).
Definition t301 : ty := (Ty ["sp_core"%string; "ed25519"%string; "Signature"%string] [] (TComposite [(Field None 302%N (Some "[u8; 64]"%string) [])]) []).
Definition t302 : ty := (Ty [] [] (TArray 64%N 2%N) []).
Definition t303 : ty := (Ty ["sp_core"%string; "sr25519"%string; "Signature"%string] [] (TComposite [(Field None 302%N (Some "[u8; 64]"%string) [])]) []).
Definition t304 : ty := (Ty ["sp_core"%string; "ecdsa"%string; "Signature"%string] [] (TComposite [(Field None 305%N (Some "[u8; 65]"%string) [])]) []).
Definition t305 : ty := (Ty [] [] (TArray 65%N 2%N) []).
Definition t306 : ty := (Ty [] [] (TTuple [307%N; 308%N; 309%N; 310%N; 311%N; 313%N; 314%N; 315%N]) []).
Definition t307 : ty := (Ty ["frame_system"%string; "extensions"%string; "check_non_zero_sender"%string; "CheckNonZeroSender"%string] [("T"%string,None)] (TComposite []) []).
Definition t308 : ty := (Ty ["frame_system"%string; "extensions"%string; "check_spec_version"%string; "CheckSpecVersion"%string] [("T"%string,None)] (TComposite []) []).
Definition t309 : ty := (Ty ["frame_system"%string; "extensions"%string; "check_tx_version"%string; "CheckTxVersion"%string] [("T"%string,None)] (TComposite []) []).
Definition t310 : ty := (Ty ["frame_system"%string; "extensions"%string; "check_genesis"%string; "CheckGenesis"%string] [("T"%string,None)] (TComposite []) []).
Definition t311 : ty := (Ty ["frame_system"%string; "extensions"%string; "check_mortality"%string; "CheckMortality"%string] [("T"%string,None)] (TComposite [(Field None 312%N (Some "Era"%string) [])]) []).
Definition t312 : ty := (Ty ["sp_runtime"%string; "generic"%string; "era"%string; "Era"%string] [] (TVariant [(Variant "Immortal"%string [] 0%N []); (Variant "Mortal1"%string [(Field None 2%N None [])] 1%N []); (Variant "Mortal2"%string [(Field None 2%N None [])] 2%N []); (Variant "Mortal3"%string [(Field None 2%N None [])] 3%N []); (Variant "Mortal4"%string [(Field None 2%N None [])] 4%N []); (Variant "Mortal5"%string [(Field None 2%N None [])] 5%N []); (Variant "Mortal6"%string [(Field None 2%N None [])] 6%N []); (Variant "Mortal7"%string [(Field None 2%N None [])] 7%N []); (Variant "Mortal8"%string [(Field None 2%N None [])] 8%N []); (Variant "Mortal9"%string [(Field None 2%N None [])] 9%N []); (Variant "Mortal10"%string [(Field None 2%N None [])] 10%N []); (Variant "Mortal11"%string [(Field None 2%N None [])] 11%N []); (Variant "Mortal12"%string [(Field None 2%N None [])] 12%N []); (Variant "Mortal13"%string [(Field None 2%N None [])] 13%N []); (Variant "Mortal14"%string [(Field None 2%N None [])] 14%N []); (Variant "Mortal15"%string [(Field None 2%N None [])] 15%N []); (Variant "Mortal16"%string [(Field None 2%N None [])] 16%N []); (Variant "Mortal17"%string [(Field None 2%N None [])] 17%N []); (Variant "Mortal18"%string [(Field None 2%N None [])] 18%N []); (Variant "Mortal19"%string [(Field None 2%N None [])] 19%N []); (Variant "Mortal20"%string [(Field None 2%N None [])] 20%N []); (Variant "Mortal21"%string [(Field None 2%N None [])] 21%N []); (Variant "Mortal22"%string [(Field None 2%N None [])] 22%N []); (Variant "Mortal23"%string [(Field None 2%N None [])] 23%N []); (Variant "Mortal24"%string [(Field None 2%N None [])] 24%N []); (Variant "Mortal25"%string [(Field None 2%N None [])] 25%N []); (Variant "Mortal26"%string [(Field None 2%N None [])] 26%N []); (Variant "Mortal27"%string [(Field None 2%N None [])] 27%N []); (Variant "Mortal28"%string [(Field None 2%N None [])] 28%N []); (Variant "Mortal29"%string [(Field None 2%N None [])] 29%N []); (Variant "Mortal30"%string [(Field None 2%N None [])] 30%N []); (Variant "Mortal31"%string [(Field None 2%N None [])] 31%N []); (Variant "Mortal32"%string [(Field None 2%N None [])] 32%N []); (Variant "Mortal33"%string [(Field None 2%N None [])] 33%N []); (Variant "Mortal34"%string [(Field None 2%N None [])] 34%N []); (Variant "Mortal35"%string [(Field None 2%N None [])] 35%N []); (Variant "Mortal36"%string [(Field None 2%N None [])] 36%N []); (Variant "Mortal37"%string [(Field None 2%N None [])] 37%N []); (Variant "Mortal38"%string [(Field None 2%N None [])] 38%N []); (Variant "Mortal39"%string [(Field None 2%N None [])] 39%N []); (Variant "Mortal40"%string [(Field None 2%N None [])] 40%N []); (Variant "Mortal41"%string [(Field None 2%N None [])] 41%N []); (Variant "Mortal42"%string [(Field None 2%N None [])] 42%N []); (Variant "Mortal43"%string [(Field None 2%N None [])] 43%N []); (Variant "Mortal44"%string [(Field None 2%N None [])] 44%N []); (Variant "Mortal45"%string [(Field None 2%N None [])] 45%N []); (Variant "Mortal46"%string [(Field None 2%N None [])] 46%N []); (Variant "Mortal47"%string [(Field None 2%N None [])] 47%N []); (Variant "Mortal48"%string [(Field None 2%N None [])] 48%N []); (Variant "Mortal49"%string [(Field None 2%N None [])] 49%N []); (Variant "Mortal50"%string [(Field None 2%N None [])] 50%N []); (Variant "Mortal51"%string [(Field None 2%N None [])] 51%N []); (Variant "Mortal52"%string [(Field None 2%N None [])] 52%N []); (Variant "Mortal53"%string [(Field None 2%N None [])] 53%N []); (Variant "Mortal54"%string [(Field None 2%N None [])] 54%N []); (Variant "Mortal55"%string [(Field None 2%N None [])] 55%N []); (Variant "Mortal56"%string [(Field None 2%N None [])] 56%N []); (Variant "Mortal57"%string [(Field None 2%N None [])] 57%N []); (Variant "Mortal58"%string [(Field None 2%N None [])] 58%N []); (Variant "Mortal59"%string [(Field None 2%N None [])] 59%N []); (Variant "Mortal60"%string [(Field None 2%N None [])] 60%N []); (Variant "Mortal61"%string [(Field None 2%N None [])] 61%N []); (Variant "Mortal62"%string [(Field None 2%N None [])] 62%N []); (Variant "Mortal63"%string [(Field None 2%N None [])] 63%N []); (Variant "Mortal64"%string [(Field None 2%N None [])] 64%N []); (Variant "Mortal65"%string [(Field None 2%N None [])] 65%N []); (Variant "Mortal66"%string [(Field None 2%N None [])] 66%N []); (Variant "Mortal67"%string [(Field None 2%N None [])] 67%N []); (Variant "Mortal68"%string [(Field None 2%N None [])] 68%N []); (Variant "Mortal69"%string [(Field None 2%N None [])] 69%N []); (Variant "Mortal70"%string [(Field None 2%N None [])] 70%N []); (Variant "Mortal71"%string [(Field None 2%N None [])] 71%N []); (Variant "Mortal72"%string [(Field None 2%N None [])] 72%N []); (Variant "Mortal73"%string [(Field None 2%N None [])] 73%N []); (Variant "Mortal74"%string [(Field None 2%N None [])] 74%N []); (Variant "Mortal75"%string [(Field None 2%N None [])] 75%N []); (Variant "Mortal76"%string [(Field None 2%N None [])] 76%N []); (Variant "Mortal77"%string [(Field None 2%N None [])] 77%N []); (Variant "Mortal78"%string [(Field None 2%N None [])] 78%N []); (Variant "Mortal79"%string [(Field None 2%N None [])] 79%N []); (Variant "Mortal80"%string [(Field None 2%N None [])] 80%N []); (Variant "Mortal81"%string [(Field None 2%N None [])] 81%N []); (Variant "Mortal82"%string [(Field None 2%N None [])] 82%N []); (Variant "Mortal83"%string [(Field None 2%N None [])] 83%N []); (Variant "Mortal84"%string [(Field None 2%N None [])] 84%N []); (Variant "Mortal85"%string [(Field None 2%N None [])] 85%N []); (Variant "Mortal86"%string [(Field None 2%N None [])] 86%N []); (Variant "Mortal87"%string [(Field None 2%N None [])] 87%N []); (Variant "Mortal88"%string [(Field None 2%N None [])] 88%N []); (Variant "Mortal89"%string [(Field None 2%N None [])] 89%N []); (Variant "Mortal90"%string [(Field None 2%N None [])] 90%N []); (Variant "Mortal91"%string [(Field None 2%N None [])] 91%N []); (Variant "Mortal92"%string [(Field None 2%N None [])] 92%N []); (Variant "Mortal93"%string [(Field None 2%N None [])] 93%N []); (Variant "Mortal94"%string [(Field None 2%N None [])] 94%N []); (Variant "Mortal95"%string [(Field None 2%N None [])] 95%N []); (Variant "Mortal96"%string [(Field None 2%N None [])] 96%N []); (Variant "Mortal97"%string [(Field None 2%N None [])] 97%N []); (Variant "Mortal98"%string [(Field None 2%N None [])] 98%N []); (Variant "Mortal99"%string [(Field None 2%N None [])] 99%N []); (Variant "Mortal100"%string [(Field None 2%N None [])] 100%N []); (Variant "Mortal101"%string [(Field None 2%N None [])] 101%N []); (Variant "Mortal102"%string [(Field None 2%N None [])] 102%N []); (Variant "Mortal103"%string [(Field None 2%N None [])] 103%N []); (Variant "Mortal104"%string [(Field None 2%N None [])] 104%N []); (Variant "Mortal105"%string [(Field None 2%N None [])] 105%N []); (Variant "Mortal106"%string [(Field None 2%N None [])] 106%N []); (Variant "Mortal107"%string [(Field None 2%N None [])] 107%N []); (Variant "Mortal108"%string [(Field None 2%N None [])] 108%N []); (Variant "Mortal109"%string [(Field None 2%N None [])] 109%N []); (Variant "Mortal110"%string [(Field None 2%N None [])] 110%N []); (Variant "Mortal111"%string [(Field None 2%N None [])] 111%N []); (Variant "Mortal112"%string [(Field None 2%N None [])] 112%N []); (Variant "Mortal113"%string [(Field None 2%N None [])] 113%N []); (Variant "Mortal114"%string [(Field None 2%N None [])] 114%N []); (Variant "Mortal115"%string [(Field None 2%N None [])] 115%N []); (Variant "Mortal116"%string [(Field None 2%N None [])] 116%N []); (Variant "Mortal117"%string [(Field None 2%N None [])] 117%N []); (Variant "Mortal118"%string [(Field None 2%N None [])] 118%N []); (Variant "Mortal119"%string [(Field None 2%N None [])] 119%N []); (Variant "Mortal120"%string [(Field None 2%N None [])] 120%N []); (Variant "Mortal121"%string [(Field None 2%N None [])] 121%N []); (Variant "Mortal122"%string [(Field None 2%N None [])] 122%N []); (Variant "Mortal123"%string [(Field None 2%N None [])] 123%N []); (Variant "Mortal124"%string [(Field None 2%N None [])] 124%N []); (Variant "Mortal125"%string [(Field None 2%N None [])] 125%N []); (Variant "Mortal126"%string [(Field None 2%N None [])] 126%N []); (Variant "Mortal127"%string [(Field None 2%N None [])] 127%N []); (Variant "Mortal128"%string [(Field None 2%N None [])] 128%N []); (Variant "Mortal129"%string [(Field None 2%N None [])] 129%N []); (Variant "Mortal130"%string [(Field None 2%N None [])] 130%N []); (Variant "Mortal131"%string [(Field None 2%N None [])] 131%N []); (Variant "Mortal132"%string [(Field None 2%N None [])] 132%N []); (Variant "Mortal133"%string [(Field None 2%N None [])] 133%N []); (Variant "Mortal134"%string [(Field None 2%N None [])] 134%N []); (Variant "Mortal135"%string [(Field None 2%N None [])] 135%N []); (Variant "Mortal136"%string [(Field None 2%N None [])] 136%N []); (Variant "Mortal137"%string [(Field None 2%N None [])] 137%N []); (Variant "Mortal138"%string [(Field None 2%N None [])] 138%N []); (Variant "Mortal139"%string [(Field None 2%N None [])] 139%N []); (Variant "Mortal140"%string [(Field None 2%N None [])] 140%N []); (Variant "Mortal141"%string [(Field None 2%N None [])] 141%N []); (Variant "Mortal142"%string [(Field None 2%N None [])] 142%N []); (Variant "Mortal143"%string [(Field None 2%N None [])] 143%N []); (Variant "Mortal144"%string [(Field None 2%N None [])] 144%N []); (Variant "Mortal145"%string [(Field None 2%N None [])] 145%N []); (Variant "Mortal146"%string [(Field None 2%N None [])] 146%N []); (Variant "Mortal147"%string [(Field None 2%N None [])] 147%N []); (Variant "Mortal148"%string [(Field None 2%N None [])] 148%N []); (Variant "Mortal149"%string [(Field None 2%N None [])] 149%N []); (Variant "Mortal150"%string [(Field None 2%N None [])] 150%N []); (Variant "Mortal151"%string [(Field None 2%N None [])] 151%N []); (Variant "Mortal152"%string [(Field None 2%N None [])] 152%N []); (Variant "Mortal153"%string [(Field None 2%N None [])] 153%N []); (Variant "Mortal154"%string [(Field None 2%N None [])] 154%N []); (Variant "Mortal155"%string [(Field None 2%N None [])] 155%N []); (Variant "Mortal156"%string [(Field None 2%N None [])] 156%N []); (Variant "Mortal157"%string [(Field None 2%N None [])] 157%N []); (Variant "Mortal158"%string [(Field None 2%N None [])] 158%N []); (Variant "Mortal159"%string [(Field None 2%N None [])] 159%N []); (Variant "Mortal160"%string [(Field None 2%N None [])] 160%N []); (Variant "Mortal161"%string [(Field None 2%N None [])] 161%N []); (Variant "Mortal162"%string [(Field None 2%N None [])] 162%N []); (Variant "Mortal163"%string [(Field None 2%N None [])] 163%N []); (Variant "Mortal164"%string [(Field None 2%N None [])] 164%N []); (Variant "Mortal165"%string [(Field None 2%N None [])] 165%N []); (Variant "Mortal166"%string [(Field None 2%N None [])] 166%N []); (Variant "Mortal167"%string [(Field None 2%N None [])] 167%N []); (Variant "Mortal168"%string [(Field None 2%N None [])] 168%N []); (Variant "Mortal169"%string [(Field None 2%N None [])] 169%N []); (Variant "Mortal170"%string [(Field None 2%N None [])] 170%N []); (Variant "Mortal171"%string [(Field None 2%N None [])] 171%N []); (Variant "Mortal172"%string [(Field None 2%N None [])] 172%N []); (Variant "Mortal173"%string [(Field None 2%N None [])] 173%N []); (Variant "Mortal174"%string [(Field None 2%N None [])] 174%N []); (Variant "Mortal175"%string [(Field None 2%N None [])] 175%N []); (Variant "Mortal176"%string [(Field None 2%N None [])] 176%N []); (Variant "Mortal177"%string [(Field None 2%N None [])] 177%N []); (Variant "Mortal178"%string [(Field None 2%N None [])] 178%N []); (Variant "Mortal179"%string [(Field None 2%N None [])] 179%N []); (Variant "Mortal180"%string [(Field None 2%N None [])] 180%N []); (Variant "Mortal181"%string [(Field None 2%N None [])] 181%N []); (Variant "Mortal182"%string [(Field None 2%N None [])] 182%N []); (Variant "Mortal183"%string [(Field None 2%N None [])] 183%N []); (Variant "Mortal184"%string [(Field None 2%N None [])] 184%N []); (Variant "Mortal185"%string [(Field None 2%N None [])] 185%N []); (Variant "Mortal186"%string [(Field None 2%N None [])] 186%N []); (Variant "Mortal187"%string [(Field None 2%N None [])] 187%N []); (Variant "Mortal188"%string [(Field None 2%N None [])] 188%N []); (Variant "Mortal189"%string [(Field None 2%N None [])] 189%N []); (Variant "Mortal190"%string [(Field None 2%N None [])] 190%N []); (Variant "Mortal191"%string [(Field None 2%N None [])] 191%N []); (Variant "Mortal192"%string [(Field None 2%N None [])] 192%N []); (Variant "Mortal193"%string [(Field None 2%N None [])] 193%N []); (Variant "Mortal194"%string [(Field None 2%N None [])] 194%N []); (Variant "Mortal195"%string [(Field None 2%N None [])] 195%N []); (Variant "Mortal196"%string [(Field None 2%N None [])] 196%N []); (Variant "Mortal197"%string [(Field None 2%N None [])] 197%N []); (Variant "Mortal198"%string [(Field None 2%N None [])] 198%N []); (Variant "Mortal199"%string [(Field None 2%N None [])] 199%N []); (Variant "Mortal200"%string [(Field None 2%N None [])] 200%N []); (Variant "Mortal201"%string [(Field None 2%N None [])] 201%N []); (Variant "Mortal202"%string [(Field None 2%N None [])] 202%N []); (Variant "Mortal203"%string [(Field None 2%N None [])] 203%N []); (Variant "Mortal204"%string [(Field None 2%N None [])] 204%N []); (Variant "Mortal205"%string [(Field None 2%N None [])] 205%N []); (Variant "Mortal206"%string [(Field None 2%N None [])] 206%N []); (Variant "Mortal207"%string [(Field None 2%N None [])] 207%N []); (Variant "Mortal208"%string [(Field None 2%N None [])] 208%N []); (Variant "Mortal209"%string [(Field None 2%N None [])] 209%N []); (Variant "Mortal210"%string [(Field None 2%N None [])] 210%N []); (Variant "Mortal211"%string [(Field None 2%N None [])] 211%N []); (Variant "Mortal212"%string [(Field None 2%N None [])] 212%N []); (Variant "Mortal213"%string [(Field None 2%N None [])] 213%N []); (Variant "Mortal214"%string [(Field None 2%N None [])] 214%N []); (Variant "Mortal215"%string [(Field None 2%N None [])] 215%N []); (Variant "Mortal216"%string [(Field None 2%N None [])] 216%N []); (Variant "Mortal217"%string [(Field None 2%N None [])] 217%N []); (Variant "Mortal218"%string [(Field None 2%N None [])] 218%N []); (Variant "Mortal219"%string [(Field None 2%N None [])] 219%N []); (Variant "Mortal220"%string [(Field None 2%N None [])] 220%N []); (Variant "Mortal221"%string [(Field None 2%N None [])] 221%N []); (Variant "Mortal222"%string [(Field None 2%N None [])] 222%N []); (Variant "Mortal223"%string [(Field None 2%N None [])] 223%N []); (Variant "Mortal224"%string [(Field None 2%N None [])] 224%N []); (Variant "Mortal225"%string [(Field None 2%N None [])] 225%N []); (Variant "Mortal226"%string [(Field None 2%N None [])] 226%N []); (Variant "Mortal227"%string [(Field None 2%N None [])] 227%N []); (Variant "Mortal228"%string [(Field None 2%N None [])] 228%N []); (Variant "Mortal229"%string [(Field None 2%N None [])] 229%N []); (Variant "Mortal230"%string [(Field None 2%N None [])] 230%N []); (Variant "Mortal231"%string [(Field None 2%N None [])] 231%N []); (Variant "Mortal232"%string [(Field None 2%N None [])] 232%N []); (Variant "Mortal233"%string [(Field None 2%N None [])] 233%N []); (Variant "Mortal234"%string [(Field None 2%N None [])] 234%N []); (Variant "Mortal235"%string [(Field None 2%N None [])] 235%N []); (Variant "Mortal236"%string [(Field None 2%N None [])] 236%N []); (Variant "Mortal237"%string [(Field None 2%N None [])] 237%N []); (Variant "Mortal238"%string [(Field None 2%N None [])] 238%N []); (Variant "Mortal239"%string [(Field None 2%N None [])] 239%N []); (Variant "Mortal240"%string [(Field None 2%N None [])] 240%N []); (Variant "Mortal241"%string [(Field None 2%N None [])] 241%N []); (Variant "Mortal242"%string [(Field None 2%N None [])] 242%N []); (Variant "Mortal243"%string [(Field None 2%N None [])] 243%N []); (Variant "Mortal244"%string [(Field None 2%N None [])] 244%N []); (Variant "Mortal245"%string [(Field None 2%N None [])] 245%N []); (Variant "Mortal246"%string [(Field None 2%N None [])] 246%N []); (Variant "Mortal247"%string [(Field None 2%N None [])] 247%N []); (Variant "Mortal248"%string [(Field None 2%N None [])] 248%N []); (Variant "Mortal249"%string [(Field None 2%N None [])] 249%N []); (Variant "Mortal250"%string [(Field None 2%N None [])] 250%N []); (Variant "Mortal251"%string [(Field None 2%N None [])] 251%N []); (Variant "Mortal252"%string [(Field None 2%N None [])] 252%N []); (Variant "Mortal253"%string [(Field None 2%N None [])] 253%N []); (Variant "Mortal254"%string [(Field None 2%N None [])] 254%N []); (Variant "Mortal255"%string [(Field None 2%N None [])] 255%N [])]) []).
Definition t313 : ty := (Ty ["frame_system"%string; "extensions"%string; "check_nonce"%string; "CheckNonce"%string] [("T"%string,None)] (TComposite [(Field None 43%N (Some "T::Index"%string) [])]) []).
Definition t314 : ty := (Ty ["frame_system"%string; "extensions"%string; "check_weight"%string; "CheckWeight"%string] [("T"%string,None)] (TComposite []) []).
Definition t315 : ty := (Ty ["pallet_asset_tx_payment"%string; "ChargeAssetTxPayment"%string] [("T"%string,None)] (TComposite [(Field (Some "tip"%string) 48%N (Some "BalanceOf<T>"%string) []); (Field (Some "asset_id"%string) 93%N (Some "Option<ChargeAssetIdOf<T>>"%string) [])]) []).
Definition t316 : ty := (Ty ["westmint_runtime"%string; "Runtime"%string] [] (TComposite []) []).
Definition types : list ty := [t0; t1; t2; t3; t4; t5; t6; t7; t8; t9; t10; t11; t12; t13; t14; t15; t16; t17; t18; t19; t20; t21; t22; t23; t24; t25; t26; t27; t28; t29; t30; t31; t32; t33; t34; t35; t36; t37; t38; t39; t40; t41; t42; t43; t44; t45; t46; t47; t48; t49; t50; t51; t52; t53; t54; t55; t56; t57; t58; t59; t60; t61; t62; t63; t64; t65; t66; t67; t68; t69; t70; t71; t72; t73; t74; t75; t76; t77; t78; t79; t80; t81; t82; t83; t84; t85; t86; t87; t88; t89; t90; t91; t92; t93; t94; t95; t96; t97; t98; t99; t100; t101; t102; t103; t104; t105; t106; t107; t108; t109; t110; t111; t112; t113; t114; t115; t116; t117; t118; t119; t120; t121; t122; t123; t124; t125; t126; t127; t128; t129; t130; t131; t132; t133; t134; t135; t136; t137; t138; t139; t140; t141; t142; t143; t144; t145; t146; t147; t148; t149; t150; t151; t152; t153; t154; t155; t156; t157; t158; t159; t160; t161; t162; t163; t164; t165; t166; t167; t168; t169; t170; t171; t172; t173; t174; t175; t176; t177; t178; t179; t180; t181; t182; t183; t184; t185; t186; t187; t188; t189; t190; t191; t192; t193; t194; t195; t196; t197; t198; t199; t200; t201; t202; t203; t204; t205; t206; t207; t208; t209; t210; t211; t212; t213; t214; t215; t216; t217; t218; t219; t220; t221; t222; t223; t224; t225; t226; t227; t228; t229; t230; t231; t232; t233; t234; t235; t236; t237; t238; t239; t240; t241; t242; t243; t244; t245; t246; t247; t248; t249; t250; t251; t252; t253; t254; t255; t256; t257; t258; t259; t260; t261; t262; t263; t264; t265; t266; t267; t268; t269; t270; t271; t272; t273; t274; t275; t276; t277; t278; t279; t280; t281; t282; t283; t284; t285; t286; t287; t288; t289; t290; t291; t292; t293; t294; t295; t296; t297; t298; t299; t300; t301; t302; t303; t304; t305; t306; t307; t308; t309; t310; t311; t312; t313; t314; t315; t316].
Definition t11_spoiled : ty := (Ty ["sp_runtime"%string; "generic"%string; "digest"%string; "Digest"%string] [] (TComposite [(Field (Some "logs"%string) 11%N (Some "Vec<DigestItem>"%string) [])]) []).
Definition types_spoiled : list ty := firstn 11 types ++ t11_spoiled :: skipn 12 types.
Definition entry : entry_meta := EntryMeta (EMap [Blake2_128Concat] 4%N 286%N) [" Metadata of an asset."%string].
Example storage_1_good :
 decode_all types (unhex "04066175726120c1f2410800000000"%string) 11 = Ok (Ext (DComposite [(FData (Some "logs"%string) (Some "Vec<DigestItem>"%string) ""%string (Ext (DSequenceRaw [(Info ""%string ["sp_runtime"%string; "generic"%string; "digest"%string; "DigestItem"%string])] [(DVariant (VData "PreRuntime"%string ""%string [(FData None (Some "ConsensusEngineId"%string) ""%string (Ext (DSequence [] (SeqU U8 [97%N; 117%N; 114%N; 97%N])) [])); (FData None (Some "Vec<u8>"%string) ""%string (Ext (DSequence [] (SeqU U8 [193%N; 242%N; 65%N; 8%N; 0%N; 0%N; 0%N; 0%N])) []))]))]) []))]) [(Info ""%string ["sp_runtime"%string; "generic"%string; "digest"%string; "Digest"%string])]).
Proof. vm_compute. reflexivity. Qed.
Example storage_2_spoiled_digest :
 decode_all types_spoiled (unhex "04066175726120c1f2410800000000"%string) 11 = Err (PRegistry (RInternal (CyclicMetadata 11))).
Proof. vm_compute. reflexivity. Qed.
(** The hash function is not modelled: the hash in the key stands for that of the key. *)
Example storage_3_assets_with_key :
 storage_entry Blake2b.blake2_128 Twox.twox_64 types (unhex "682a59d51ab9e48a8c8cc418ff9708d2b5f3822e35ca2f31ce3526eab1363fd211d2df4e979aa105cf552e9544ebd2b500000000"%string) (unhex "c07a64621700000000000000000000003c4f70656e5371756172652054657374104f534e540a00"%string) entry =
 Ok (Storage (KSingle (KParsed (Ext (DUInt U32 0%N SuNone) []))) (Ext (DComposite [(FData (Some "deposit"%string) (Some "DepositBalance"%string) ""%string (Ext (DUInt U128 100435000000%N SuBalance) [])); (FData (Some "name"%string) (Some "BoundedString"%string) ""%string (Ext (DComposite [(FData None (Some "Vec<T>"%string) ""%string (Ext (DSequence [] (SeqU U8 [79%N; 112%N; 101%N; 110%N; 83%N; 113%N; 117%N; 97%N; 114%N; 101%N; 32%N; 84%N; 101%N; 115%N; 116%N])) []))]) [(Info ""%string ["sp_runtime"%string; "bounded"%string; "bounded_vec"%string; "BoundedVec"%string])])); (FData (Some "symbol"%string) (Some "BoundedString"%string) ""%string (Ext (DComposite [(FData None (Some "Vec<T>"%string) ""%string (Ext (DSequence [] (SeqU U8 [79%N; 83%N; 78%N; 84%N])) []))]) [(Info ""%string ["sp_runtime"%string; "bounded"%string; "bounded_vec"%string; "BoundedVec"%string])])); (FData (Some "decimals"%string) (Some "u8"%string) ""%string (Ext (DUInt U8 10%N SuNone) [])); (FData (Some "is_frozen"%string) (Some "bool"%string) ""%string (Ext (DBool false) []))]) [(Info ""%string ["pallet_assets"%string; "types"%string; "AssetMetadata"%string])]) " Metadata of an asset."%string).
Proof. vm_compute. reflexivity. Qed.
