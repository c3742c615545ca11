(** A small concrete chain and transactions for it, used beside the theorems to show that
    their hypotheses are met. *)
From Verif Require Import Base Compact Types Indicators Decode Sign Spec SpecWf Sample Api ApiSign.
Local Open Scope string_scope.
Local Open Scope list_scope.

Definition chain_types : list ty :=
  [ (* 0 *) Ty [] [] (TPrimitive (PrU U8)) [];
    (* 1 *) Ty [] [] (TPrimitive (PrU U32)) [];
    (* 2 *) Ty [] [] (TArray 32 0) [];
    (* 3 *) Ty ["primitive_types"; "H256"] [] (TComposite [Field None 2 (Some "[u8; 32]") []]) [];
    (* 4 *) Ty ["sp_runtime"; "generic"; "era"; "Era"] [] (TVariant []) [];
    (* 5 *) Ty [] [] (TTuple []) [];
    (* 6 *) Ty [] [] (TPrimitive (PrU U128)) [];
    (* 7 *) Ty [] [] (TCompact 6) [];
    (* 8 *) Ty ["pallet_balances"; "pallet"; "Call"] [("T", None)] (TVariant
              [ Variant "transfer" [Field (Some "value") 7 (Some "T::Balance") []] 3 ["Transfers."];
                Variant "burn" [] 5 [] ]) ["Calls."];
    (* 9 *) Ty ["runtime"; "RuntimeCall"] [] (TVariant
              [ Variant "System" [Field None 1 None []] 0 []; Variant "Balances" [Field None 8 None []] 4 [] ]) [];
    (* 10 *) Ty ["frame_system"; "CheckSpecVersion"] [] (TComposite []) [];
    (* 11 *) Ty ["frame_system"; "CheckGenesis"] [] (TComposite []) [];
    (* 12 *) Ty ["frame_system"; "CheckMortality"] [] (TComposite [Field None 4 (Some "Era") []]) [] ].

Definition check_version := ExtMeta "CheckSpecVersion" 10 1.
Definition check_genesis := ExtMeta "CheckGenesis" 11 3.
Definition check_mortality := ExtMeta "CheckMortality" 12 3.

Definition chain_with (l : list ext_meta) : chain string :=
  Chain string chain_types (inl (SpecNameVersion "9010" [116; 101; 115; 116]%N)) (inl 9%N) (inl l)
    (inl (ExtrinsicParams 3 9 3 5)) (inl 4%N).

Definition sample_chain : chain string := chain_with [check_version; check_genesis; check_mortality].

Example chain_types_wf : well_formed chain_types.
Proof. apply wf_check_ok. vm_compute. reflexivity. Qed.

(** The call transfer(value = 1000). *)
Definition the_call : bytes := [4; 3; 161; 15]%N.
Definition call_data : psdata pdata :=
  PSData (Info "Calls." ["pallet_balances"; "pallet"; "Call"]) "Transfers." "Balances" "transfer"
    [FData (Some "value") (Some "T::Balance") "" (Ext (DUInt U128 1000 SuBalance) [])].

Definition genesis : bytes := map N.of_nat (seq 1 32).
Definition other_hash : bytes := map N.of_nat (seq 100 32).
Definition version_bytes : bytes := [50; 35; 0; 0]%N.

(** A mortal era, then the version, the genesis hash and the block hash. *)
Definition mortal_extensions : bytes := [165; 0]%N ++ version_bytes ++ genesis ++ other_hash.
Definition immortal_extensions : bytes := [0]%N ++ version_bytes ++ genesis ++ genesis.

Definition prefixed (call : bytes) : bytes := compact_enc (N.of_nat (List.length call)) ++ call.
