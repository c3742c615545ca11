(** Batches of transfers, and batches of batches (C79): the bytes a wallet puts together and the
    lines that are to be read on the screen.  Only definitions; nothing of the decoder is used. *)
From Verif Require Import Base Compact Types Indicators Sign Balance Cards Spec SpecCards ApiSign SpecTransfer.
Local Open Scope string_scope.
Local Open Scope list_scope.

(** A transfer, or a list of actions done by one call; [i], [j], [name]: the index of the pallet, the
    index of the call and its name. *)
Inductive action :=
| Transfer (i j : N) (name : string) (dest : bytes) (amount : N)
| Batch (i j : N) (name : string) (l : list action).

(** Call [j] of pallet [i], which is called Utility, is [name](calls: Vec<Call>). *)
Definition batch_call (types : list ty) (call_ty i j : N) (name : string) : Prop :=
  exists t pallets pallet f inner items call fc,
    lookup types call_ty = Some t /\ classify t = SpItem ItCall /\ t_def t = TVariant pallets /\
    by_index pallets i = Some pallet /\ v_name pallet = "Utility" /\ v_fields pallet = [f] /\
    lookup types (f_ty f) = Some inner /\ classify inner = SpItem ItCall /\ t_def inner = TVariant items /\
    by_index items j = Some call /\ v_name call = name /\ v_fields call = [fc] /\
    f_name fc = Some "calls" /\ ordinary types (f_ty fc) (TSequence call_ty).

(** The calls are there, recipients are 32 bytes, amounts u128, and there are less than 2^32
    actions in each batch. *)
Inductive possible (types : list ty) (call_ty : N) : action -> Prop :=
| Po_transfer i j name dest amount : transfer_call types call_ty i j name -> (i < 256)%N -> (j < 256)%N ->
    is_bytes dest -> List.length dest = 32%nat -> (amount < 2 ^ 128)%N -> possible types call_ty (Transfer i j name dest amount)
| Po_batch i j name l : batch_call types call_ty i j name -> (i < 256)%N -> (j < 256)%N ->
    (N.of_nat (List.length l) < 2 ^ 32)%N -> Forall (possible types call_ty) l -> possible types call_ty (Batch i j name l).

Fixpoint action_bytes (a : action) : bytes :=
  match a with
  | Transfer i j _ dest amount => transfer_bytes i j dest amount
  | Batch i j _ l => i :: j :: compact_enc (N.of_nat (List.length l)) ++ flat_map action_bytes l
  end.

Local Open Scope string_scope.

(** The lines of what is in a batch follow one another, eight blanks further to the right. *)
Fixpoint action_lines (base58 : fixed_kind -> bytes -> N -> string) (specs : short_specs) (a : action) : list string :=
  match a with
  | Transfer _ _ name dest amount => transfer_lines base58 specs name dest amount
  | Batch _ _ name l =>
      ["Pallet: Utility";
       "  Call: " ++ name;
       "    Field Name: calls";
       "      Sequence: " ++ dec_string (N.of_nat (List.length l)) ++ " element(s)"]%string
      ++ flat_map (fun a => map (append "        ") (action_lines base58 specs a)) l
  end%list.
