(** C55 for storage entries, calls and unchecked extrinsics: what was decoded, without labels. *)
From Verif Require Import Base Compact Types Sign Unchecked Storage Spec SpecRename.
Local Open Scope list_scope.
Local Open Scope string_scope.

Section Reading.
Variable g : reading.
Definition bare_ext (x : ext pdata) : ext pdata := Ext (bare g (x_data x)) [].
Definition bare_part (k : key_part) : key_part := match k with KParsed x => KParsed (bare_ext x) | KHash _ _ _ => k end.
Definition bare_key (k : key_data) : key_data :=
  match k with
  | KPlain => KPlain
  | KSingle x => KSingle (bare_part x)
  | KTuple l _ => KTuple (map bare_part l) (Info "" [])
  end.
Definition bare_storage (s : storage) : storage := Storage (bare_key (st_key s)) (bare_ext (st_value s)) (st_docs s).
Definition bare_unchecked (u : unchecked) : pdata * list (ext pdata) :=
  match u with
  | UxSigned a s x c => (bare g (DCall c), [bare_ext a; bare_ext s; bare_ext x])
  | UxUnsigned c => (bare g (DCall c), [])
  end.
End Reading.

(** Both succeed, with results that [f] does not tell apart, or both fail equally. *)
Definition same_answer {X A B} (f : A -> B) (o1 o2 : outcome X A) : Prop :=
  match o1, o2 with
  | Ok x1, Ok x2 => f x1 = f x2
  | Err y1, Err y2 => y1 = y2
  | Panic, Panic | OutOfFuel, OutOfFuel => True
  | _, _ => False
  end.
