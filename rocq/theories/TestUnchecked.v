(** GENERATED by /verif/tools/gen4.py from /repo/for_tests/westend9111 and /repo/src/tests.rs: tests of the
    repository replayed on the model (tests of the fidelity of the model, not proofs of
    properties). *)
From Verif Require Import Base Compact Types Indicators Decode Sign Meta Unchecked TestWestend.
Example unchecked_extrinsic_1 :
 match decode_as_unchecked_extrinsic (slice_buffer (unhex "39028400d43593c715fdd31c61141abd04a99fd6822c8558854ccde39a5684e7a56da27d0158e09098782f2e40602b37d94fe3e2d051c2e4927c34bc85525297310642db08280110b4a02b89676e966d07fdf7f362cdeb858d28d681564bd0f7d33dce5c8cc50204000403008eaf04151687736326c9fea17e25fc5287613693c912909cb226aa4794f26a480284d717"%string)) md 0 tt with
 | (Ok (UxSigned address signature extra call), _, _) => Some (address, signature, extra, ps_fields call)
 | _ => None
 end = Some ((Ext (DVariant (VData "Id"%string ""%string [(FData None (Some "AccountId"%string) ""%string (Ext (DFixed KAccountId32 (unhex "d43593c715fdd31c61141abd04a99fd6822c8558854ccde39a5684e7a56da27d"%string)) [(Info ""%string ["sp_core"%string; "crypto"%string; "AccountId32"%string])]))])) [(Info ""%string ["sp_runtime"%string; "multiaddress"%string; "MultiAddress"%string])]),
 (Ext (DVariant (VData "Sr25519"%string ""%string [(FData None (Some "sr25519::Signature"%string) ""%string (Ext (DFixed KSigSr25519 (unhex "58e09098782f2e40602b37d94fe3e2d051c2e4927c34bc85525297310642db08280110b4a02b89676e966d07fdf7f362cdeb858d28d681564bd0f7d33dce5c8c"%string)) [(Info ""%string ["sp_core"%string; "sr25519"%string; "Signature"%string])]))])) [(Info ""%string ["sp_runtime"%string; "MultiSignature"%string])]),
 (Ext (DTuple [(Ext (DComposite []) [(Info ""%string ["frame_system"%string; "extensions"%string; "check_spec_version"%string; "CheckSpecVersion"%string])]); (Ext (DComposite []) [(Info ""%string ["frame_system"%string; "extensions"%string; "check_tx_version"%string; "CheckTxVersion"%string])]); (Ext (DComposite []) [(Info ""%string ["frame_system"%string; "extensions"%string; "check_genesis"%string; "CheckGenesis"%string])]); (Ext (DComposite [(FData None (Some "Era"%string) ""%string (Ext (DEra (Mortal 64%N 44%N)) [(Info ""%string ["sp_runtime"%string; "generic"%string; "era"%string; "Era"%string])]))]) [(Info ""%string ["frame_system"%string; "extensions"%string; "check_mortality"%string; "CheckMortality"%string])]); (Ext (DComposite [(FData None (Some "T::Index"%string) ""%string (Ext (DUInt U32 1%N SuNonce) []))]) [(Info ""%string ["frame_system"%string; "extensions"%string; "check_nonce"%string; "CheckNonce"%string])]); (Ext (DComposite []) [(Info ""%string ["frame_system"%string; "extensions"%string; "check_weight"%string; "CheckWeight"%string])]); (Ext (DComposite [(FData None (Some "BalanceOf<T>"%string) ""%string (Ext (DUInt U128 0%N SuTip) []))]) [(Info ""%string ["pallet_transaction_payment"%string; "ChargeTransactionPayment"%string])])]) []),
 [(FData (Some "dest"%string) (Some "<T::Lookup as StaticLookup>::Source"%string) ""%string (Ext (DVariant (VData "Id"%string ""%string [(FData None (Some "AccountId"%string) ""%string (Ext (DFixed KAccountId32 (unhex "8eaf04151687736326c9fea17e25fc5287613693c912909cb226aa4794f26a48"%string)) [(Info ""%string ["sp_core"%string; "crypto"%string; "AccountId32"%string])]))])) [(Info ""%string ["sp_runtime"%string; "multiaddress"%string; "MultiAddress"%string])])); (FData (Some "value"%string) (Some "T::Balance"%string) ""%string (Ext (DUInt U128 100000000%N SuBalance) []))]).
Proof. vm_compute. reflexivity. Qed.
