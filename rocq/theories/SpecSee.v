(** When the displayed lines determine the bytes (C47, C48). *)
From Verif Require Import Base Compact Types Cards Spec SpecCards.
Local Open Scope string_scope.
Local Open Scope list_scope.

(** In every enum of the registry the variants have different names, and each kind of bare
    signature is recognised in one variant only (the variants of one index count as one). *)
Definition told_apart (types : list ty) : Prop :=
  forall id t variants a b, lookup types id = Some t -> t_def t = TVariant variants ->
    In a variants -> In b variants ->
    (v_name a = v_name b \/
     exists k, variant_sig types t a = Some k /\ variant_sig types t b = Some k) ->
    v_index a = v_index b.

(** What a display cannot tell: a compact per-thing above 100% is shown as 100%, and the
    unused bits of the last element of a bit vector are not shown. *)
Definition shown_in_full (d : pdata) : Prop :=
  match d with
  | DPer k n => (n < whole k)%N
  | DBitVec w _ bits => (List.length bits mod (8 * usize w) = 0)%nat
  | _ => True
  end.

Definition nothing_hidden (d : pdata) : Prop := everywhere shown_in_full d.

(** Bit strings are printed as they are (that addresses tell keys apart is [base58_faithful]). *)
Definition bits_faithful (bits_string : uwidth -> bit_order -> list bool -> string) : Prop :=
  forall w o a b, bits_string w o a = bits_string w o b -> a = b.

(** No newline in the text. *)
Definition one_line (s : string) : Prop := ~ In (ascii_of_nat 10) (list_ascii_of_string s).
