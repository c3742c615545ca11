(** Metadata with trimmed enums (C51): enums keep only some of their variants. *)
From Verif Require Import Base Types Spec SpecReach.
Local Open Scope list_scope.

(** Every index known to [few] means the same in [all], and not all variants are removed. *)
Definition fewer (few all : list variant) : Prop :=
  (forall i v, by_index few i = Some v -> by_index all i = Some v) /\ (few = [] -> all = []).

Definition trimmed (t1 t2 : ty) : Prop :=
  t_path t1 = t_path t2 /\ t_params t1 = t_params t2 /\ t_docs t1 = t_docs t2 /\
  match t_def t1, t_def t2 with
  | TVariant few, TVariant all => fewer few all
  | d1, d2 => d1 = d2
  end.

(** [types1] is [types2] with enums trimmed; types outside of [S] do not matter. [S]
    contains with each type the types that the trimmed type still needs. *)
Record trimmed_types (S : N -> Prop) (types1 types2 : list ty) : Prop := TrimmedTypes {
  tt_closed : closed (@portable unit types1) S;
  tt_length : (List.length types1 <= List.length types2)%nat;
  tt_types : forall id, S id ->
    match lookup types1 id, lookup types2 id with
    | Some t1, Some t2 => trimmed t1 t2
    | None, None => True
    | _, _ => False
    end
}.

(** The error for an enum index that is not known. *)
Definition unknown_variant (x : parser_err) : Prop := exists p, x = UnexpectedEnumVariant p.

(** *** Metadata *)
From Verif Require Import Decode Sign Unchecked Storage ApiSign.

(** In-memory metadata that differ only by trimmed enums; [S] contains the types of the
    call, the extensions and the parts of a signed extrinsic. *)
Record trimmed_chain {ME} (S : N -> Prop) (c1 c2 : chain ME) : Prop := TrimmedChain {
  tc_types : trimmed_types S (ch_types c1) (ch_types c2);
  tc_spec : ch_spec c1 = ch_spec c2;
  tc_call : ch_call c1 = ch_call c2;
  tc_extensions : ch_extensions c1 = ch_extensions c2;
  tc_params : ch_params c1 = ch_params c2;
  tc_version : ch_version c1 = ch_version c2;
  tc_call_in : forall id, ch_call c1 = inl id -> S id;
  tc_extensions_in : forall l x, ch_extensions c1 = inl l -> In x l -> S (em_ty x) /\ S (em_additional x);
  tc_params_in : forall x, ch_params c1 = inl x ->
    S (ep_address x) /\ S (ep_call x) /\ S (ep_signature x) /\ S (ep_extra x)
}.

(** Same answer, or refusal because of a variant that was trimmed away. *)
Definition same_or_unknown {X A} (wrap : parser_err -> X) (o1 o2 : outcome X A) : Prop :=
  o1 = o2 \/ exists p, o1 = Err (wrap (UnexpectedEnumVariant p)).

(** For marked transactions the call may be refused separately. *)
Definition same_transaction {ME} (o1 o2 : outcome (signable_err ME) (transaction_parsed ME)) : Prop :=
  match o1, o2 with
  | Ok t1, Ok t2 => tp_extensions t1 = tp_extensions t2 /\
      (tp_call t1 = tp_call t2 \/ exists p, tp_call t1 = inr (Parsing (UnexpectedEnumVariant p)))
  | _, _ => same_or_unknown Parsing o1 o2
  end.
