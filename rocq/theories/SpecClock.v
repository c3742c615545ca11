(** The time of a block (C80): the call by which it is set, the extrinsic that block authors put
    into every block, and its lines.  Only definitions; nothing of the decoder is used. *)
From Verif Require Import Base Compact Types Indicators Sign Balance Cards Spec SpecCards ApiSign SpecTransfer.
Local Open Scope string_scope.
Local Open Scope list_scope.

(** Call [j] of pallet [i], which is called Timestamp, is set(now: Compact<u64>). *)
Definition clock_call (types : list ty) (call_ty i j : N) : Prop :=
  exists t pallets pallet f inner items call now,
    lookup types call_ty = Some t /\ classify t = SpItem ItCall /\ t_def t = TVariant pallets /\
    by_index pallets i = Some pallet /\ v_name pallet = "Timestamp" /\ v_fields pallet = [f] /\
    lookup types (f_ty f) = Some inner /\ classify inner = SpItem ItCall /\ t_def inner = TVariant items /\
    by_index items j = Some call /\ v_name call = "set" /\ v_fields call = [now] /\
    f_name now = Some "now" /\ field_label now = HNone /\ compact_number types U64 (f_ty now).

(** Milliseconds since 1970. *)
Definition clock_bytes (i j now : N) : bytes := i :: j :: compact_enc now.

(** Not signed: length, version, call. *)
Definition inherent (version : N) (call : bytes) : bytes :=
  compact_enc (N.of_nat (List.length (version :: call))) ++ version :: call.

Definition clock_lines (now : N) : list string :=
  ["Pallet: Timestamp";
   "  Call: set";
   "    Field Name: now";
   "      u64: " ++ dec_string now]%string.
