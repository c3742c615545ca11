(** What the parameters of the display may change, what stands inside what (C74). *)
From Verif Require Import Base Compact Types Sign Balance Cards Spec SpecBalance SpecCards.
Local Open Scope string_scope.
Local Open Scope list_scope.

Section Formats.
Variable base58 : fixed_kind -> bytes -> N -> string.
Variable identicon : bytes -> bytes.
Variables s1 s2 : short_specs.
Variables n1 n2 : string.

(** The same content in two formats: the first for chain specs [s1] and chain name [n1], the
    second for [s2] and [n2].  [f1] and [f2]: whether balances outside of calls and events are
    in units of the chain. *)
Inductive reformatted (f1 f2 : bool) : pcard -> pcard -> Prop :=
| R_same c : reformatted f1 f2 c c
| R_balance v c1 c2 : in_units s1 v c1 -> in_units s2 v c2 ->
    (decimals s1 = decimals s2 -> unit_name s1 = unit_name s2 -> c1 = c2) ->
    reformatted f1 f2 (PcBalance c1) (PcBalance c2)
| R_tip v c1 c2 : in_units s1 v c1 -> in_units s2 v c2 ->
    (decimals s1 = decimals s2 -> unit_name s1 = unit_name s2 -> c1 = c2) ->
    reformatted f1 f2 (PcTip c1) (PcTip c2)
| R_address k b :
    reformatted f1 f2 (PcId k (base58 k b (base58prefix s1)) (identicon b))
                      (PcId k (base58 k b (base58prefix s2)) (identicon b))
| R_chain v : reformatted f1 f2 (PcNameSpecVersion n1 v) (PcNameSpecVersion n2 v)
| R_less v c s : f1 = true -> f2 = false -> in_units s1 v c -> decimal s v ->
    reformatted f1 f2 (PcBalance c) (PcBalanceRaw s)
| R_more v c s : f1 = false -> f2 = true -> in_units s2 v c -> decimal s v ->
    reformatted f1 f2 (PcBalanceRaw s) (PcBalance c).

(** Cards at the same place. *)
Definition same_place (f1 f2 : bool) (a b : ecard) : Prop :=
  ec_indent a = ec_indent b /\ ec_info a = ec_info b /\ reformatted f1 f2 (ec_card a) (ec_card b).

(** When two cards at the same place may differ, and how. *)
Definition differ_only (f1 f2 : bool) (a b : pcard) : Prop :=
  match a, b with
  | PcId k1 _ i1, PcId k2 _ i2 => base58prefix s1 <> base58prefix s2 /\ k1 = k2 /\ i1 = i2
  | PcBalance _, PcBalance _ | PcTip _, PcTip _ => decimals s1 <> decimals s2 \/ unit_name s1 <> unit_name s2
  | PcNameSpecVersion m1 v1, PcNameSpecVersion m2 v2 => n1 <> n2 /\ m1 = n1 /\ m2 = n2 /\ v1 = v2
  | PcBalance _, PcBalanceRaw _ => f1 = true /\ f2 = false
  | PcBalanceRaw _, PcBalance _ => f1 = false /\ f2 = true
  | _, _ => False
  end.
End Formats.

(** Parts of a value: the values of its fields, components, elements. *)
Definition fields_in (d : pdata) : list (fdata pdata) :=
  match d with
  | DComposite fs => fs
  | DVariant v => vd_fields v
  | DCall c => ps_fields c
  | DEvent c => ps_fields c
  | _ => []
  end.
Definition parts_in (d : pdata) : list pdata :=
  match d with
  | DTuple l => map x_data l
  | DSequenceRaw _ l => l
  | _ => map (fun f => x_data (fd_data f)) (fields_in d)
  end.

(** Whether balances in the parts are in units of the chain. *)
Definition units_in (units : bool) (d : pdata) : bool :=
  match d with
  | DCall c => unit_pallet (ps_pallet_name c)
  | DEvent c => unit_pallet (ps_pallet_name c)
  | _ => units
  end.

(** [inside u d w q]: [q] is [d] or stands in [d] at any depth; balances are in units of the
    chain ([true]) or not in [d] ([u]) and in [q] ([w]). *)
Inductive inside : bool -> pdata -> bool -> pdata -> Prop :=
| I_self u d : inside u d u d
| I_part u d p w q : In p (parts_in d) -> inside (units_in u d) p w q -> inside u d w q.
