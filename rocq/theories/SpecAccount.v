(** Account entries in the storage (C78): what the metadata have, the bytes in the storage and the
    lines that are to be read on the screen.  Only definitions; nothing of the decoder is used. *)
From Verif Require Import Base Compact Types Indicators Sign Balance Cards Spec ApiSign SpecTransfer.
Local Open Scope string_scope.
Local Open Scope list_scope.

(** What a chain knows of an account.  [ac_third] and [ac_fourth]: on older chains the balances
    misc_frozen and fee_frozen, on newer ones the balance frozen and a number, flags. *)
Record account := Account {
  ac_nonce : N; ac_consumers : N; ac_providers : N; ac_sufficients : N;
  ac_free : N; ac_reserved : N; ac_third : N; ac_fourth : N }.

Definition account_in_range (a : account) : Prop :=
  (ac_nonce a < 2 ^ 32 /\ ac_consumers a < 2 ^ 32 /\ ac_providers a < 2 ^ 32 /\ ac_sufficients a < 2 ^ 32 /\
   ac_free a < 2 ^ 128 /\ ac_reserved a < 2 ^ 128 /\ ac_third a < 2 ^ 128 /\ ac_fourth a < 2 ^ 128)%N.

Definition account_bytes (a : account) : bytes :=
  le_bytes 4 (ac_nonce a) ++ le_bytes 4 (ac_consumers a) ++ le_bytes 4 (ac_providers a) ++ le_bytes 4 (ac_sufficients a) ++
  le_bytes 16 (ac_free a) ++ le_bytes 16 (ac_reserved a) ++ le_bytes 16 (ac_third a) ++ le_bytes 16 (ac_fourth a).

(** ** Types *)

Section Types.
Variable types : list ty.

Definition number_type (w : uwidth) (id : N) : Prop := ordinary types id (TPrimitive (PrU w)).

(** A struct around a number, as ExtraFlags(u128). *)
Definition wrapped_number (w : uwidth) (id : N) : Prop :=
  exists f, ordinary types id (TComposite [f]) /\ f_name f = None /\ field_label f = HNone /\ number_type w (f_ty f).

(** A field with its name, label and type. *)
Definition field_is (f : field) (name : string) (label : hint) (P : N -> Prop) : Prop :=
  f_name f = Some name /\ field_label f = label /\ P (f_ty f).

Definition balances_type (flags : bool) (id : N) : Prop :=
  exists f1 f2 f3 f4, ordinary types id (TComposite [f1; f2; f3; f4]) /\
    field_is f1 "free" HFieldBalance (number_type U128) /\
    field_is f2 "reserved" HFieldBalance (number_type U128) /\
    field_is f3 (if flags then "frozen" else "misc_frozen") HFieldBalance (number_type U128) /\
    (if flags then field_is f4 "flags" HNone (wrapped_number U128)
     else field_is f4 "fee_frozen" HFieldBalance (number_type U128)).

Definition account_type (flags : bool) (id : N) : Prop :=
  exists f1 f2 f3 f4 f5, ordinary types id (TComposite [f1; f2; f3; f4; f5]) /\
    field_is f1 "nonce" HFieldNonce (number_type U32) /\
    field_is f2 "consumers" HNone (number_type U32) /\
    field_is f3 "providers" HNone (number_type U32) /\
    field_is f4 "sufficients" HNone (number_type U32) /\
    field_is f5 "data" HNone (balances_type flags).
End Types.

(** ** What is shown *)

Local Open Scope string_scope.

Section Lines.
Variable specs : short_specs.

(** The balances as amounts in the unit of the chain, exactly (C35). *)
Definition account_lines (flags : bool) (a : account) : list string :=
  [ "Struct: 5 field(s)";
    "  Field Name: nonce";
    "    Nonce: " ++ dec_string (ac_nonce a);
    "  Field Name: consumers";
    "    u32: " ++ dec_string (ac_consumers a);
    "  Field Name: providers";
    "    u32: " ++ dec_string (ac_providers a);
    "  Field Name: sufficients";
    "    u32: " ++ dec_string (ac_sufficients a);
    "  Field Name: data";
    "    Struct: 4 field(s)";
    "      Field Name: free";
    "        Balance: " ++ money specs (ac_free a);
    "      Field Name: reserved";
    "        Balance: " ++ money specs (ac_reserved a);
    "      Field Name: " ++ (if flags then "frozen" else "misc_frozen");
    "        Balance: " ++ money specs (ac_third a);
    "      Field Name: " ++ (if flags then "flags" else "fee_frozen");
    "        " ++ (if flags then "u128: " ++ dec_string (ac_fourth a) else "Balance: " ++ money specs (ac_fourth a)) ].
End Lines.
