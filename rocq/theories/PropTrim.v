(** C51: metadata with trimmed enums.  Only statements and examples; proofs in ProofTrim.v
    and ProofTrim2.v, specification in SpecTrim.v. *)
From Coq Require Import Lia.
From Verif Require Import Base Compact Types Indicators Decode Sign Unchecked Storage Meta Spec SpecWf SpecSource SpecReach SpecTrim
  SpecUnchecked ProofBase ProofSafe2 ProofTrim2 ProofCor PropReach Sample Api ApiSign ApiStorage SampleChain.
From Verif Require TestWestend.
Local Open Scope string_scope.
Local Open Scope list_scope.

(** C51: with trimmed enums the result for any input is the same, or the input is refused
    because of an enum index that is not known. *)
Theorem c51_value : forall S types1 types2 data id pos o1 q1 o2 q2,
  trimmed_types S types1 types2 -> S id ->
  decode_at types1 data id pos = (o1, q1) -> decode_at types2 data id pos = (o2, q2) ->
  same_or_unknown (fun x => x) o1 o2 /\ (forall x, o1 = Ok x -> q1 = q2).
Proof. intros S t1 t2 data id pos o1 q1 o2 q2 H. exact (decode_at_trim data t1 t2 S H id pos o1 q1 o2 q2). Qed.
Print Assumptions c51_value.

Theorem c51_all : forall S types1 types2 data id,
  trimmed_types S types1 types2 -> S id ->
  same_or_unknown (fun x => x) (decode_all types1 data id) (decode_all types2 data id).
Proof. intros S t1 t2 data id H. exact (decode_all_trim data t1 t2 S H id). Qed.
Print Assumptions c51_all.

(** In particular nothing is accepted with another meaning. *)
Theorem c51_never_misread : forall S types1 types2 data id x,
  trimmed_types S types1 types2 -> S id ->
  decode_all types1 data id = Ok x -> decode_all types2 data id = Ok x.
Proof.
  intros S t1 t2 data id x H Hid H1. destruct (c51_all S t1 t2 data id H Hid) as [E|(p & E)]; congruence.
Qed.
Print Assumptions c51_never_misread.

(** What can be encoded with the remaining variants is decoded as before. *)
Theorem c51_retained : forall S types1 types2 id v bs d l pre post,
  trimmed_types S types1 types2 -> S id -> acyclic types1 ->
  enc types1 false id v = Some bs -> view types1 false HNone id v = Some (d, l) -> is_bytes (pre ++ post) ->
  decode_at types1 (pre ++ bs ++ post) id (List.length pre) = (Ok (Ext d l), (List.length pre + List.length bs)%nat) /\
  decode_at types2 (pre ++ bs ++ post) id (List.length pre) = (Ok (Ext d l), (List.length pre + List.length bs)%nat).
Proof.
  intros S t1 t2 id v bs d l pre post H Hid Ha He Hv Hb.
  pose proof (round_trip_acyclic t1 id v bs d l pre post Ha He Hv Hb) as H1. split; [exact H1|].
  destruct (decode_at t2 (pre ++ bs ++ post) id (List.length pre)) as [o2 q2] eqn:H2.
  destruct (c51_value S t1 t2 _ id _ _ _ _ _ H Hid H1 H2) as [[E|(p & E)] Hq]; [|discriminate E].
  rewrite <- (Hq _ eq_refl), <- E. reflexivity.
Qed.
Print Assumptions c51_retained.

(** Transactions. *)
Theorem c51_transaction : forall ME S (c1 c2 : chain ME) genesis data,
  trimmed_chain S c1 c2 -> same_transaction (transaction c1 genesis data) (transaction c2 genesis data).
Proof. intros ME S c1 c2 g data H. exact (transaction_trim c1 c2 S H data g). Qed.
Print Assumptions c51_transaction.

Theorem c51_unmarked : forall ME S (c1 c2 : chain ME) genesis data,
  trimmed_chain S c1 c2 -> same_or_unknown Parsing (transaction_unmarked c1 genesis data) (transaction_unmarked c2 genesis data).
Proof. intros ME S c1 c2 g data H. exact (unmarked_trim c1 c2 S H data g). Qed.
Print Assumptions c51_unmarked.

Theorem c51_unchecked : forall ME S (c1 c2 : chain ME) data,
  trimmed_chain S c1 c2 -> same_or_unknown UParsing (unchecked_extrinsic c1 data) (unchecked_extrinsic c2 data).
Proof. intros ME S c1 c2 data H. exact (unchecked_trim c1 c2 S H data). Qed.
Print Assumptions c51_unchecked.

(** Storage entries. *)
Theorem c51_storage : forall S types1 types2 blake2_128 twox_64 key value entry,
  trimmed_types S types1 types2 -> entry_in (@portable unit types1) S (en_ty entry) ->
  let o1 := storage_entry blake2_128 twox_64 types1 key value entry in
  let o2 := storage_entry blake2_128 twox_64 types2 key value entry in
  same_or_unknown ParsingKey o1 o2 \/ same_or_unknown ParsingValue o1 o2.
Proof. intros S t1 t2 bl tw key value entry H. exact (storage_trim bl tw t1 t2 S H key value entry). Qed.
Print Assumptions c51_storage.

(** Removing all variants is not allowed: an enum without variants takes no bytes. *)
Example c51_empty : exists types1 types2 data,
  (forall i v vs1 vs2, t_def (hd (Ty [] [] (TTuple []) []) types1) = TVariant vs1 ->
     t_def (hd (Ty [] [] (TTuple []) []) types2) = TVariant vs2 -> by_index vs1 i = Some v -> by_index vs2 i = Some v) /\
  fst (decode_at types1 data 0 0) = Ok (Ext DEmptyEnum []) /\ fst (decode_at types2 data 0 0) = Err (UnexpectedEnumVariant 0).
Proof.
  exists [Ty [] [] (TVariant []) []], [Ty [] [] (TVariant [Variant "A" [] 0 []]) []], [1]%N.
  split; [|vm_compute; auto]. intros i v vs1 vs2 H1 _ H. cbn in H1. injection H1 as <-. discriminate H.
Qed.

(** ** Trimming lists of types *)

(** Variants are kept by their index; enums of which nothing is kept are left alone. *)
Definition trim_def (keep : N -> bool) (d : typedef) : typedef :=
  match d with
  | TVariant vs =>
      match filter (fun v => keep (v_index v)) vs with
      | [] => d
      | few => TVariant few
      end
  | _ => d
  end.
Definition trim_ty (keep : N -> bool) (t : ty) : ty := Ty (t_path t) (t_params t) (trim_def keep (t_def t)) (t_docs t).
Definition trim_types (keep : N -> N -> bool) (types : list ty) : list ty :=
  map (fun x => trim_ty (keep (fst x)) (snd x)) (indexed types).

Lemma filter_by_index keep vs i v : by_index (filter (fun v => keep (v_index v)) vs) i = Some v -> by_index vs i = Some v.
Proof.
  unfold by_index. induction vs as [|w vs IH]; cbn [filter find]; [discriminate|].
  destruct (keep (v_index w)) eqn:Hk; cbn [find].
  - destruct (v_index w =? i)%N; [exact (fun H => H)|exact IH].
  - intros H. destruct (N.eqb_spec (v_index w) i) as [E|E]; [|exact (IH H)].
    exfalso. apply find_some in H. destruct H as [H1 H2]. apply filter_In in H1. apply N.eqb_eq in H2. destruct H1 as [_ H1]. congruence.
Qed.

Lemma trim_ty_trimmed keep t : trimmed (trim_ty keep t) t.
Proof.
  unfold trimmed, trim_ty. cbn [t_path t_params t_docs t_def]. repeat split.
  destruct (t_def t) as [|vs| | | | | |]; cbn [trim_def]; try reflexivity.
  destruct (filter (fun v => keep (v_index v)) vs) as [|w few] eqn:Ef; [split; auto|]. split; [|discriminate].
  intros i v H. rewrite <- Ef in H. exact (filter_by_index keep vs i v H).
Qed.

Lemma lookup_trim keep types id : lookup (trim_types keep types) id = option_map (trim_ty (keep id)) (lookup types id).
Proof.
  rewrite !lookup_nth. unfold trim_types. rewrite nth_error_map, indexed_nth.
  destruct (nth_error types (N.to_nat id)) as [t|]; [|reflexivity]. cbn [option_map fst snd]. rewrite N2Nat.id. reflexivity.
Qed.

(** Trimming and then emptying whatever is not needed any more. *)
Lemma trim_shorten keep ids types n :
  closed_check ids (trim_types keep types) = true -> Forall (fun i => (i < N.of_nat n)%N) ids -> (n <= List.length types)%nat ->
  trimmed_types (fun i => In i ids) (shorten ids n (trim_types keep types)) types.
Proof.
  intros Hc Hn Hl. pose proof (shorten_same ids n (trim_types keep types) Hn) as Hs.
  assert (L : forall id, In id ids -> lookup (shorten ids n (trim_types keep types)) id = option_map (trim_ty (keep id)) (lookup types id)).
  { intros id Hin. rewrite <- lookup_trim. specialize (Hs id tt Hin). cbn [resolve portable] in Hs. unfold portable_resolve in Hs.
    destruct (lookup (trim_types keep types) id), (lookup (shorten ids n (trim_types keep types)) id); congruence. }
  constructor.
  - intros id e t e' Hin Hr. apply (closed_check_ok _ _ Hc id e t e' Hin). rewrite (Hs id e Hin). exact Hr.
  - unfold shorten. rewrite map_length, firstn_length. lia.
  - intros id Hin. rewrite (L id Hin). destruct (lookup types id) as [t|]; cbn [option_map]; [apply trim_ty_trimmed|exact I].
Qed.

(** *** Westend with only the calls of one pallet *)

(** Of the enum of all calls (type 267) only Balances (index 4) is kept. *)
Definition only_balances (id i : N) : bool := if (id =? 267)%N then (i =? 4)%N else true.

Definition chain_of {ME} (m : metadata unit ME) (types : list ty) : chain ME :=
  Chain ME types (m_spec_name_version m) (m_call_ty m) (m_signed_extensions m) (m_extrinsic_type_params m) (m_extrinsic_version m).

Definition balances_ids : list N := gather 4000 (trim_types only_balances TestWestend.md_types) (roots_of TestWestend.md) [].
Definition balances_types : list ty := shorten balances_ids 597 (trim_types only_balances TestWestend.md_types).
Definition westend := chain_of TestWestend.md TestWestend.md_types.
Definition balances_only := chain_of TestWestend.md balances_types.

Example balances_checks : (List.length balances_ids < 40)%nat
  /\ closed_check balances_ids (trim_types only_balances TestWestend.md_types) = true
  /\ forallb (fun i => (i <? 597)%N) balances_ids = true
  /\ included (roots_of TestWestend.md) balances_ids = true
  /\ Nat.leb 597 (List.length TestWestend.md_types) = true.
Proof. split; [apply Nat.ltb_lt; vm_compute; reflexivity|]. vm_compute. repeat split; reflexivity. Qed.

Lemma trimmed_metadata : forall ME (m : metadata unit ME) S types1 types2, trimmed_types S types1 types2 ->
  (forall i, In i (roots_of m) -> S i) -> trimmed_chain S (chain_of m types1) (chain_of m types2).
Proof.
  intros ME m S types1 types2 Ht Hin. unfold roots_of in Hin.
  destruct m as [mt msp mc mx mp mv]. unfold chain_of.
  cbn [m_types m_spec_name_version m_call_ty m_signed_extensions m_extrinsic_type_params m_extrinsic_version] in *.
  constructor; cbn [ch_types ch_spec ch_call ch_extensions ch_params ch_version]; try reflexivity.
  - exact Ht.
  - intros id ->. apply Hin. left. reflexivity.
  - intros l x -> Hx. assert (H : forall i, In i [em_ty x; em_additional x] -> S i).
    { intros i H. apply Hin, in_or_app. right. apply in_or_app. right. apply in_flat_map. exists x. auto. }
    split; apply H; cbn [In]; auto.
  - intros x ->. assert (H : forall i, In i [ep_address x; ep_call x; ep_signature x; ep_extra x] -> S i).
    { intros i H. apply Hin, in_or_app. right. apply in_or_app. left. exact H. }
    repeat split; apply H; cbn [In]; auto.
Qed.

Lemma balances_trimmed : trimmed_chain (fun i => In i balances_ids) balances_only westend.
Proof.
  destruct balances_checks as (_ & Hc & Hn & Hi & Hl). apply trimmed_metadata.
  - apply trim_shorten; [exact Hc| |apply Nat.leb_le, Hl].
    apply Forall_forall. rewrite forallb_forall in Hn. intros i H. specialize (Hn i H). apply N.ltb_lt in Hn. lia.
  - intros i Hin. exact (included_ok _ _ Hi i Hin).
Qed.

(** With fewer than 40 of the 597 types every transaction is answered as with the complete
    metadata, or its call is refused as unknown. *)
Theorem c51_westend : forall data genesis,
  same_transaction (transaction balances_only genesis data) (transaction westend genesis data) /\
  same_or_unknown UParsing (unchecked_extrinsic balances_only data) (unchecked_extrinsic westend data).
Proof.
  intros data g. split.
  - exact (c51_transaction _ _ _ _ g data balances_trimmed).
  - exact (c51_unchecked _ _ _ _ data balances_trimmed).
Qed.
Print Assumptions c51_westend.

(** A transfer is read, a call of another pallet is refused. *)
Definition westend_genesis := TestWestend.unhex "e143f23803ac50e8f6f8e62695d1ce9e4e1d68aa36c1cd2cfd15340213f3423e".
Definition a_transfer := TestWestend.unhex "a40403008eaf04151687736326c9fea17e25fc5287613693c912909cb226aa4794f26a480700e8764817b501b8009723000005000000e143f23803ac50e8f6f8e62695d1ce9e4e1d68aa36c1cd2cfd15340213f3423e538a7d7a0ac17eb6dd004578cb8e238c384a10f57c999a3fa1200409cd9b3f33".
Definition another_call := TestWestend.unhex "a40003008eaf04151687736326c9fea17e25fc5287613693c912909cb226aa4794f26a480700e8764817b501b8009723000005000000e143f23803ac50e8f6f8e62695d1ce9e4e1d68aa36c1cd2cfd15340213f3423e538a7d7a0ac17eb6dd004578cb8e238c384a10f57c999a3fa1200409cd9b3f33".

Example c51_transfer :
  match transaction balances_only (Some westend_genesis) a_transfer with
  | Ok t => match tp_call t with inl d => (ps_pallet_name d, ps_variant_name d) | inr _ => ("", "") end
  | _ => ("", "")
  end = ("Balances", "transfer_keep_alive") /\
  match transaction balances_only (Some westend_genesis) another_call with
  | Ok t => match tp_call t with inl _ => None | inr x => Some x end
  | _ => None
  end = Some (Parsing (UnexpectedEnumVariant 1)).
Proof. split; vm_compute; reflexivity. Qed.
