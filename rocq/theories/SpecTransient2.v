(** Memory that fails now and then: transactions, unchecked extrinsics and storage entries (C66). *)
From Verif Require Import Base Compact Types Indicators Decode Sign Unchecked Storage SpecTrack SpecTransient.
Local Open Scope list_scope.

(** The same call, except for which enums among its arguments are recognised as calls, events
    or bare signatures. *)
Definition same_call (c c0 : psdata pdata) : Prop :=
  same_reading (Ext (DCall c) []) (Ext (DCall c0) []).

Section Sign.
Context {ME : Type}.

(** Errors that a memory fault can give instead of a result: the memory's own error is passed
    on, or the call is not recognised as one; *)
Definition call_fault (x : signable_err ME) : Prop :=
  (exists y, x = Parsing y /\ pext y) \/ exists id, x = NotACall id.
(** or the transaction is said to be cut. *)
Definition sign_fault (x : signable_err ME) : Prop :=
  x = CutSignable \/ exists y, x = Parsing y /\ pext y.

(** The error without faults, or another parsing error in place of a parsing error. *)
Definition sign_told (x y : signable_err ME) : Prop :=
  x = y \/ exists a b, x = Parsing a /\ y = Parsing b.

(** The call part of a transaction, with faults and without. *)
Definition call_told (x y : psdata pdata + signable_err ME) : Prop :=
  match x, y with
  | inl c, inl c0 => same_call c c0
  | inl _, inr _ => False
  | inr x, inl _ => call_fault x
  | inr x, inr y => call_fault x \/ sign_told x y
  end.

(** Unchecked extrinsics. *)
Definition unchecked_fault (x : unchecked_err ME) : Prop :=
  x = FormatNoCompact \/ (exists y, x = UParsing y /\ pext y) \/ exists id, x = UnexpectedCallTy id.
Definition unchecked_told (x y : unchecked_err ME) : Prop :=
  x = y \/ exists a b, x = UParsing a /\ y = UParsing b.
Definition same_unchecked (x y : unchecked) : Prop :=
  match x, y with
  | UxSigned a s e c, UxSigned a0 s0 e0 c0 =>
      same_reading a a0 /\ same_reading s s0 /\ same_reading e e0 /\ same_call c c0
  | UxUnsigned c, UxUnsigned c0 => same_call c c0
  | _, _ => False
  end.
End Sign.

(** Storage entries. *)
Definition storage_fault (x : storage_err) : Prop :=
  (exists y, x = ParsingKey y /\ pext y) \/ exists y, x = ParsingValue y /\ pext y.
Definition storage_told (x y : storage_err) : Prop :=
  x = y \/ (exists a b, x = ParsingKey a /\ y = ParsingKey b) \/ exists a b, x = ParsingValue a /\ y = ParsingValue b.
Definition same_part (x y : key_part) : Prop :=
  match x, y with
  | KParsed a, KParsed b => same_reading a b
  | KHash _ _ _, KHash _ _ _ => x = y
  | _, _ => False
  end.
Definition same_key (x y : key_data) : Prop :=
  match x, y with
  | KPlain, KPlain => True
  | KSingle a, KSingle b => same_part a b
  | KTuple l i, KTuple l' i' => Forall2 same_part l l' /\ i = i'
  | _, _ => False
  end.
Definition same_entry (x y : storage) : Prop :=
  same_key (st_key x) (st_key y) /\ same_reading (st_value x) (st_value y) /\ st_docs x = st_docs y.
