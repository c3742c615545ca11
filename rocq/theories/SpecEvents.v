(** Events in the storage (C81): what the metadata have, the bytes in the storage and the lines that
    are to be read on the screen.  Only definitions; nothing of the decoder is used. *)
From Verif Require Import Base Compact Types Indicators Sign Balance Cards Spec ApiSign SpecTransfer SpecAccount.
Local Open Scope string_scope.
Local Open Scope list_scope.

(** How an extrinsic was executed: time, size of the proof, class, whether the fee was paid. *)
Inductive class := Normal | Operational | Mandatory.
Record dispatch := Dispatch { di_time : N; di_size : N; di_class : class; di_paid : bool }.

(** What an event tells under its names: accounts, amounts of money, and how extrinsics were executed. *)
Inductive argument := Who (account : bytes) | Amount (n : N) | Executed (d : dispatch).

(** Pallet and event, by index and by name, and the arguments. *)
Record event := Event { ev_i : N; ev_j : N; ev_pallet : string; ev_name : string; ev_args : list (string * argument) }.

(** When it happened: in an extrinsic of the block, after them, before them. *)
Inductive phase := InExtrinsic (n : N) | AtEnd | AtStart.

Record happening := Happening { ha_phase : phase; ha_event : event; ha_topics : list bytes }.

(** ** Types *)

Section Types.
Variable types : list ty.

Definition weight_type (id : N) : Prop :=
  exists f1 f2, ordinary types id (TComposite [f1; f2]) /\
    field_is f1 "ref_time" HNone (compact_number types U64) /\ field_is f2 "proof_size" HNone (compact_number types U64).

Definition class_type (id : N) : Prop :=
  exists l, ordinary types id (TVariant l) /\ has_variant l 0 "Normal" [] /\ has_variant l 1 "Operational" [] /\ has_variant l 2 "Mandatory" [].

Definition paid_type (id : N) : Prop :=
  exists l, ordinary types id (TVariant l) /\ has_variant l 0 "Yes" [] /\ has_variant l 1 "No" [].

Definition dispatch_type (id : N) : Prop :=
  exists f1 f2 f3, ordinary types id (TComposite [f1; f2; f3]) /\
    field_is f1 "weight" HNone weight_type /\ field_is f2 "class" HNone class_type /\ field_is f3 "pays_fee" HNone paid_type.

Definition argument_field (f : field) (x : string * argument) : Prop :=
  f_name f = Some (fst x) /\
  match snd x with
  | Who who => recognised types (f_ty f) (SpRaw KAccountId32) /\ is_bytes who /\ List.length who = 32%nat
  | Amount n => field_label f = HFieldBalance /\ number_type types U128 (f_ty f) /\ (n < 2 ^ 128)%N
  | Executed d => field_label f = HNone /\ dispatch_type (f_ty f) /\ (di_time d < 2 ^ 64)%N /\ (di_size d < 2 ^ 64)%N
  end.

Definition event_known (event_ty : N) (e : event) : Prop :=
  exists t pallets pallet f inner items item,
    lookup types event_ty = Some t /\ classify t = SpItem ItEvent /\ t_def t = TVariant pallets /\
    by_index pallets (ev_i e) = Some pallet /\ v_name pallet = ev_pallet e /\ v_fields pallet = [f] /\
    lookup types (f_ty f) = Some inner /\ classify inner = SpItem ItEvent /\ t_def inner = TVariant items /\
    by_index items (ev_j e) = Some item /\ v_name item = ev_name e /\
    Forall2 argument_field (v_fields item) (ev_args e) /\ (ev_i e < 256)%N /\ (ev_j e < 256)%N.

Definition phase_type (id : N) : Prop :=
  exists l f, ordinary types id (TVariant l) /\
    has_variant l 0 "ApplyExtrinsic" [f] /\ f_name f = None /\ field_label f = HNone /\ number_type types U32 (f_ty f) /\
    has_variant l 1 "Finalization" [] /\ has_variant l 2 "Initialization" [].

Definition hashes_type (id : N) : Prop := exists h, ordinary types id (TSequence h) /\ recognised types h SpHash.

(** Vec<EventRecord>. *)
Definition events_type (event_ty id : N) : Prop :=
  exists r f1 f2 f3, ordinary types id (TSequence r) /\ ordinary types r (TComposite [f1; f2; f3]) /\
    field_is f1 "phase" HNone phase_type /\ field_is f2 "event" HNone (eq event_ty) /\ field_is f3 "topics" HNone hashes_type.

Definition happening_known (event_ty : N) (x : happening) : Prop :=
  match ha_phase x with InExtrinsic n => (n < 2 ^ 32)%N | _ => True end /\
  event_known event_ty (ha_event x) /\
  (N.of_nat (List.length (ha_topics x)) < 2 ^ 32)%N /\ Forall (fun h => is_bytes h /\ List.length h = 32%nat) (ha_topics x).
End Types.

(** ** What is stored *)

Definition class_bytes (c : class) : bytes := match c with Normal => [0%N] | Operational => [1%N] | Mandatory => [2%N] end.
Definition paid_bytes (p : bool) : bytes := if p then [0%N] else [1%N].
Definition dispatch_bytes (d : dispatch) : bytes := compact_enc (di_time d) ++ compact_enc (di_size d) ++ class_bytes (di_class d) ++ paid_bytes (di_paid d).
Definition argument_bytes (a : argument) : bytes := match a with Who who => who | Amount n => le_bytes 16 n | Executed d => dispatch_bytes d end.
Definition event_bytes (e : event) : bytes := ev_i e :: ev_j e :: flat_map (fun x => argument_bytes (snd x)) (ev_args e).
Definition phase_bytes (p : phase) : bytes := match p with InExtrinsic n => 0%N :: le_bytes 4 n | AtEnd => [1%N] | AtStart => [2%N] end.
Definition happening_bytes (x : happening) : bytes :=
  phase_bytes (ha_phase x) ++ event_bytes (ha_event x) ++ compact_enc (N.of_nat (List.length (ha_topics x))) ++ List.concat (ha_topics x).
Definition events_bytes (l : list happening) : bytes := compact_enc (N.of_nat (List.length l)) ++ flat_map happening_bytes l.

(** ** What is shown *)

Local Open Scope string_scope.

Section Lines.
Variable base58 : fixed_kind -> bytes -> N -> string.
Variable specs : short_specs.

(** Amounts are in the unit of the chain only in the pallets that are known to use it. *)
Definition argument_lines (pallet : string) (a : argument) : list string :=
  match a with
  | Who who => ["Id: " ++ base58 KAccountId32 who (base58prefix specs)]
  | Amount n => [if String.eqb pallet "Balances" || String.eqb pallet "Staking" then "Balance: " ++ money specs n else "Balance Raw: " ++ dec_string n]
  | Executed d =>
      [ "Struct: 3 field(s)";
        "  Field Name: weight";
        "    Struct: 2 field(s)";
        "      Field Name: ref_time";
        "        u64: " ++ dec_string (di_time d);
        "      Field Name: proof_size";
        "        u64: " ++ dec_string (di_size d);
        "  Field Name: class";
        "    Enum";
        "      Enum Variant Name: " ++ match di_class d with Normal => "Normal" | Operational => "Operational" | Mandatory => "Mandatory" end;
        "  Field Name: pays_fee";
        "    Enum";
        "      Enum Variant Name: " ++ if di_paid d then "Yes" else "No" ]
  end.

Definition event_lines (e : event) : list string :=
  ("Pallet: " ++ ev_pallet e) :: ("  Event: " ++ ev_name e) ::
  flat_map (fun x => ("    Field Name: " ++ fst x) :: map (append "      ") (argument_lines (ev_pallet e) (snd x))) (ev_args e).

Definition phase_lines (p : phase) : list string :=
  match p with
  | InExtrinsic n => ["Enum"; "  Enum Variant Name: ApplyExtrinsic"; "    u32: " ++ dec_string n]
  | AtEnd => ["Enum"; "  Enum Variant Name: Finalization"]
  | AtStart => ["Enum"; "  Enum Variant Name: Initialization"]
  end.

Definition happening_lines (x : happening) : list string :=
  (["Struct: 3 field(s)"; "  Field Name: phase"] ++ map (append "    ") (phase_lines (ha_phase x)) ++
   ["  Field Name: event"] ++ map (append "    ") (event_lines (ha_event x)) ++
   ["  Field Name: topics"; ("    Sequence: " ++ dec_string (N.of_nat (List.length (ha_topics x))) ++ " element(s)")%string] ++
   map (fun h => "      H256: " ++ hex_encode h)%string (ha_topics x))%list.

Definition events_lines (l : list happening) : list string :=
  ("Sequence: " ++ dec_string (N.of_nat (List.length l)) ++ " element(s)") ::
  flat_map (fun x => map (append "  ") (happening_lines x)) l.
End Lines.
