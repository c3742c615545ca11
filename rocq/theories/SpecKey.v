(** Positions in the errors of data that starts elsewhere (C58). *)
From Verif Require Import Base Compact Types Decode Storage SpecSign.

(** The same answer, positions counted from [k] bytes earlier. *)
Definition move_parsed {A} (k : nat) (o : outcome parser_err A) : outcome parser_err A :=
  match o with Err x => Err (move_err k x) | y => y end.

Definition move_storage {A} (k : nat) (o : outcome storage_err A) : outcome storage_err A :=
  match o with Err (ParsingKey x) => Err (ParsingKey (move_err k x)) | y => y end.
