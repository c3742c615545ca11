(** V14 and V15 metadata of one runtime (C72). *)
From Verif Require Import Base Compact Types Indicators Decode Sign Unchecked Meta Spec SpecMeta.

(** The V14 metadata, as far as its extrinsic type matters, and the V15 metadata describe the
    same runtime: everything but the types of the parts of extrinsics is the same. *)
Record one_runtime (m : metadata_v14) (m' : metadata_v15) : Prop := OneRuntime {
  one_types : v14_types m = v15_types m';
  one_pallets : v14_pallets m = v15_pallets m';
  one_version : v14_extrinsic_version m = v15_extrinsic_version m';
  one_extensions : v14_signed_extensions m = v15_signed_extensions m'
}.

(** An error with V15 metadata, and the same error with V14 metadata: the only error of V15
    metadata is about the runtime version, and it is one of those of V14. *)
Inductive same_error : signable_err version_err -> signable_err v14_err -> Prop :=
| SE_cut : same_error CutSignable CutSignable
| SE_list x : same_error (ExtensionsList x) (ExtensionsList x)
| SE_immortal : same_error ImmortalHashMismatch ImmortalHashMismatch
| SE_meta x : same_error (MetaStructure x) (MetaStructure (V14Version x))
| SE_not_a_call id : same_error (NotACall id) (NotACall id)
| SE_parsing x : same_error (Parsing x) (Parsing x)
| SE_unused_call a b : same_error (SomeDataNotUsedCall a b) (SomeDataNotUsedCall a b)
| SE_unused_extensions a : same_error (SomeDataNotUsedExtensions a) (SomeDataNotUsedExtensions a)
| SE_genesis a b : same_error (WrongGenesisHash a b) (WrongGenesisHash a b)
| SE_version a b : same_error (WrongSpecVersion a b) (WrongSpecVersion a b).

Inductive same_unchecked_error : unchecked_err version_err -> unchecked_err v14_err -> Prop :=
| SU_compact : same_unchecked_error FormatNoCompact FormatNoCompact
| SU_meta x : same_unchecked_error (UMetaStructure x) (UMetaStructure (V14Version x))
| SU_parsing x : same_unchecked_error (UParsing x) (UParsing x)
| SU_version a b : same_unchecked_error (VersionMismatch a b) (VersionMismatch a b)
| SU_call id : same_unchecked_error (UnexpectedCallTy id) (UnexpectedCallTy id).

(** Equal results up to what errors are equal. *)
Inductive same_answer {X Y A B} (err : X -> Y -> Prop) (val : A -> B -> Prop) : outcome X A -> outcome Y B -> Prop :=
| SA_ok a b : val a b -> same_answer err val (Ok a) (Ok b)
| SA_err x y : err x y -> same_answer err val (Err x) (Err y).

(** Equal parsed transactions: equal extensions, and equal calls or equal call errors. *)
Inductive same_parsed : transaction_parsed version_err -> transaction_parsed v14_err -> Prop :=
| SP_call c xs : same_parsed (TransactionParsed (inl c) xs) (TransactionParsed (inl c) xs)
| SP_error x y xs : same_error x y -> same_parsed (TransactionParsed (inr x) xs) (TransactionParsed (inr y) xs).
