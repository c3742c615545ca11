(** C81 for chains whose metadata is in the repository. *)
From Coq Require Import Lia.
From Verif Require Import Base Compact Types Indicators Decode Sign Balance Cards Storage Spec SpecStorage SpecCards SpecSee SpecFault SpecTransfer SpecAccount SpecEvents Api ApiStorage
  PropTransfer PropTransferReal PropAccount PropEvents.
From Verif Require TestPolkadot9430 TestPolkadot15 TestUnchecked15 TestAstar TestBifrost TestStatemint TestAcala2012 TestAcala2200 Address PropAddress PropWhole PropReal PropSee
  Blake2b Twox.
Local Open Scope string_scope.
Local Open Scope list_scope.

(** ** Checks *)

Definition is_event_item (s : special) : bool := match s with SpItem ItEvent => true | _ => false end.
Lemma event_item_ok s : is_event_item s = true -> s = SpItem ItEvent.
Proof. destruct s as [| | | | | |k]; try discriminate; destruct k; try discriminate; reflexivity. Qed.

Definition is_hash (s : special) : bool := match s with SpHash => true | _ => false end.
Lemma hash_ok s : is_hash s = true -> s = SpHash.
Proof. destruct s; try discriminate. reflexivity. Qed.

Section Checks.
Variable types : list ty.

Definition variantb (l : list variant) (n : N) (name : string) (P : list field -> bool) : bool :=
  match by_index l n with Some v => String.eqb (v_name v) name && P (v_fields v) | None => false end.
Definition no_fields (fs : list field) : bool := match fs with [] => true | _ => false end.

Lemma variantb_ok l n name P : variantb l n name P = true -> exists fs, has_variant l n name fs /\ P fs = true.
Proof.
  unfold variantb. intros H. destruct (by_index l n) as [v|] eqn:E; [|discriminate]. apply andb_prop in H. destruct H as [H1 H2]. apply String.eqb_eq in H1.
  exists (v_fields v). split; [exists v; auto|exact H2].
Qed.

Definition classb (id : N) : bool :=
  ordinaryb types id (fun d => match d with
    | TVariant l => variantb l 0 "Normal" no_fields && variantb l 1 "Operational" no_fields && variantb l 2 "Mandatory" no_fields
    | _ => false end).
Definition paidb (id : N) : bool :=
  ordinaryb types id (fun d => match d with TVariant l => variantb l 0 "Yes" no_fields && variantb l 1 "No" no_fields | _ => false end).
Definition weightb (id : N) : bool :=
  ordinaryb types id (fun d => match d with
    | TComposite [f1; f2] => (named f1 "ref_time" && no_labelb f1 && compactb types U64 (f_ty f1)) && (named f2 "proof_size" && no_labelb f2 && compactb types U64 (f_ty f2))
    | _ => false end).
Definition dispatchb (id : N) : bool :=
  ordinaryb types id (fun d => match d with
    | TComposite [f1; f2; f3] => (named f1 "weight" && no_labelb f1 && weightb (f_ty f1)) &&
        (named f2 "class" && no_labelb f2 && classb (f_ty f2)) && (named f3 "pays_fee" && no_labelb f3 && paidb (f_ty f3))
    | _ => false end).

Lemma classb_ok id : classb id = true -> class_type types id.
Proof.
  intros H. apply ordinaryb_ok in H. destruct H as (d & Ho & H). destruct d as [|l| | | | | |]; try discriminate.
  apply andb_prop in H. destruct H as [H H2]. apply andb_prop in H. destruct H as [H0 H1]. apply variantb_ok in H0, H1, H2.
  destruct H0 as ([|] & V0 & F0); try discriminate. destruct H1 as ([|] & V1 & F1); try discriminate. destruct H2 as ([|] & V2 & F2); try discriminate.
  exists l. auto.
Qed.
Lemma paidb_ok id : paidb id = true -> paid_type types id.
Proof.
  intros H. apply ordinaryb_ok in H. destruct H as (d & Ho & H). destruct d as [|l| | | | | |]; try discriminate.
  apply andb_prop in H. destruct H as [H0 H1]. apply variantb_ok in H0, H1.
  destruct H0 as ([|] & V0 & F0); try discriminate. destruct H1 as ([|] & V1 & F1); try discriminate. exists l. auto.
Qed.
Lemma weightb_ok id : weightb id = true -> weight_type types id.
Proof.
  intros H. apply ordinaryb_ok in H. destruct H as (d & Ho & H). destruct d as [[|f1 [|f2 [|] ] ]| | | | | | |]; try discriminate.
  apply andb_prop in H. destruct H as [H1 H2]. exists f1, f2. refine (conj Ho (conj _ _)).
  - exact (is_ok _ _ _ _ _ _ (no_label_ok f1) (compactb_ok types U64) H1).
  - exact (is_ok _ _ _ _ _ _ (no_label_ok f2) (compactb_ok types U64) H2).
Qed.
Lemma dispatchb_ok id : dispatchb id = true -> dispatch_type types id.
Proof.
  intros H. apply ordinaryb_ok in H. destruct H as (d & Ho & H). destruct d as [[|f1 [|f2 [|f3 [|] ] ] ]| | | | | | |]; try discriminate.
  apply andb_prop in H. destruct H as [H H3]. apply andb_prop in H. destruct H as [H1 H2]. exists f1, f2, f3. refine (conj Ho (conj _ (conj _ _))).
  - exact (is_ok _ _ _ _ _ _ (no_label_ok f1) weightb_ok H1).
  - exact (is_ok _ _ _ _ _ _ (no_label_ok f2) classb_ok H2).
  - exact (is_ok _ _ _ _ _ _ (no_label_ok f3) paidb_ok H3).
Qed.

(** The names and kinds of the arguments. *)
Inductive kind := IsWho | IsAmount | IsExecuted.
Definition argumentb (f : field) (x : string * kind) : bool :=
  named f (fst x) &&
  match snd x with
  | IsWho => recognisedb types (f_ty f) raw_account
  | IsAmount => balance_labelb f && plainb types U128 (f_ty f)
  | IsExecuted => no_labelb f && dispatchb (f_ty f)
  end.

Fixpoint argumentsb (fs : list field) (l : list (string * kind)) : bool :=
  match fs, l with
  | [], [] => true
  | f :: fs', x :: l' => argumentb f x && argumentsb fs' l'
  | _, _ => false
  end.

Definition eventb (event_ty i j : N) (pallet_name name : string) (l : list (string * kind)) : bool :=
  match lookup types event_ty with
  | Some t => is_event_item (classify t) &&
      match t_def t with
      | TVariant pallets =>
          match by_index pallets i with
          | Some pallet => String.eqb (v_name pallet) pallet_name &&
              match v_fields pallet with
              | [f] =>
                  match lookup types (f_ty f) with
                  | Some inner => is_event_item (classify inner) &&
                      match t_def inner with
                      | TVariant items =>
                          match by_index items j with
                          | Some item => String.eqb (v_name item) name && argumentsb (v_fields item) l
                          | None => false
                          end
                      | _ => false
                      end
                  | None => false
                  end
              | _ => false
              end
          | None => false
          end
      | _ => false
      end
  | None => false
  end && (i <? 256)%N && (j <? 256)%N.

Definition kind_of (a : argument) : kind := match a with Who _ => IsWho | Amount _ => IsAmount | Executed _ => IsExecuted end.
Definition argument_in_range (a : argument) : Prop :=
  match a with
  | Who who => is_bytes who /\ List.length who = 32%nat
  | Amount n => (n < 2 ^ 128)%N
  | Executed d => (di_time d < 2 ^ 64)%N /\ (di_size d < 2 ^ 64)%N
  end.

Lemma argumentsb_ok fs : forall args, argumentsb fs (map (fun x => (fst x, kind_of (snd x))) args) = true ->
  Forall (fun x => argument_in_range (snd x)) args -> Forall2 (argument_field types) fs args.
Proof.
  induction fs as [|f fs IH]; intros [|[n a] args] H R; try discriminate H; [constructor|].
  cbn [map argumentsb] in H. apply andb_prop in H. destruct H as [H Hr]. inversion R as [|? ? R1 R2]. subst.
  constructor; [|apply IH; assumption]. unfold argumentb in H. cbn [fst snd] in H. apply andb_prop in H. destruct H as [Hn H].
  split; [exact (named_ok _ _ Hn)|]. cbn [snd] in *. destruct a as [who|m|d]; cbn [kind_of] in H.
  - split; [exact (recognisedb_ok types _ _ _ PropTransfer.account_ok H)|exact R1].
  - apply andb_prop in H. destruct H as [Hl Hp]. refine (conj (balance_label_ok _ Hl) (conj (plainb_ok types U128 _ Hp) R1)).
  - apply andb_prop in H. destruct H as [Hl Hp]. exact (conj (no_label_ok _ Hl) (conj (dispatchb_ok _ Hp) R1)).
Qed.

Lemma eventb_ok event_ty e : eventb event_ty (ev_i e) (ev_j e) (ev_pallet e) (ev_name e) (map (fun x => (fst x, kind_of (snd x))) (ev_args e)) = true ->
  Forall (fun x => argument_in_range (snd x)) (ev_args e) -> event_known types event_ty e.
Proof.
  unfold eventb. intros H R. apply andb_prop in H. destruct H as [H Lj]. apply andb_prop in H. destruct H as [H Li]. apply N.ltb_lt in Li, Lj.
  destruct (lookup types event_ty) as [t|] eqn:E1; [|discriminate]. apply andb_prop in H. destruct H as [H1 H].
  apply event_item_ok in H1. destruct (t_def t) as [|pallets| | | | | |] eqn:E2; try discriminate.
  destruct (by_index pallets (ev_i e)) as [pallet|] eqn:E3; [|discriminate]. apply andb_prop in H. destruct H as [H2 H]. apply String.eqb_eq in H2.
  destruct (v_fields pallet) as [|f [|g r] ] eqn:E4; try discriminate. destruct (lookup types (f_ty f)) as [inner|] eqn:E5; [|discriminate].
  apply andb_prop in H. destruct H as [H3 H]. apply event_item_ok in H3. destruct (t_def inner) as [|items| | | | | |] eqn:E6; try discriminate.
  destruct (by_index items (ev_j e)) as [item|] eqn:E7; [|discriminate]. apply andb_prop in H. destruct H as [H4 H]. apply String.eqb_eq in H4.
  exists t, pallets, pallet, f, inner, items, item.
  exact (conj E1 (conj H1 (conj E2 (conj E3 (conj H2 (conj E4 (conj E5 (conj H3 (conj E6 (conj E7 (conj H4 (conj (argumentsb_ok _ _ H R) (conj Li Lj))))))))))))).
Qed.

Definition phaseb (id : N) : bool :=
  ordinaryb types id (fun d => match d with
    | TVariant l =>
        variantb l 0 "ApplyExtrinsic" (fun fs => match fs with [f] => noname f && no_labelb f && plainb types U32 (f_ty f) | _ => false end) &&
        variantb l 1 "Finalization" no_fields && variantb l 2 "Initialization" no_fields
    | _ => false end).
Lemma phaseb_ok id : phaseb id = true -> phase_type types id.
Proof.
  intros H. apply ordinaryb_ok in H. destruct H as (d & Ho & H). destruct d as [|l| | | | | |]; try discriminate.
  apply andb_prop in H. destruct H as [H H2]. apply andb_prop in H. destruct H as [H0 H1].
  apply variantb_ok in H0, H1, H2. destruct H0 as (fs & V0 & F0). destruct H1 as ([|] & V1 & F1); try discriminate. destruct H2 as ([|] & V2 & F2); try discriminate.
  destruct fs as [|f [|] ]; try discriminate. apply andb_prop in F0. destruct F0 as [F0 F3]. apply andb_prop in F0. destruct F0 as [F4 F5].
  exists l, f. exact (conj Ho (conj V0 (conj (noname_ok _ F4) (conj (no_label_ok _ F5) (conj (plainb_ok types U32 _ F3) (conj V1 V2)))))).
Qed.

Definition hashesb (id : N) : bool := ordinaryb types id (fun d => match d with TSequence h => recognisedb types h is_hash | _ => false end).
Lemma hashesb_ok id : hashesb id = true -> hashes_type types id.
Proof.
  intros H. apply ordinaryb_ok in H. destruct H as (d & Ho & H). destruct d as [| |h| | | | |]; try discriminate. exists h. split; [exact Ho|].
  exact (recognisedb_ok types h _ _ hash_ok H).
Qed.

Definition eventsb (event_ty id : N) : bool :=
  ordinaryb types id (fun d => match d with
    | TSequence r => ordinaryb types r (fun d => match d with
        | TComposite [f1; f2; f3] => (named f1 "phase" && no_labelb f1 && phaseb (f_ty f1)) &&
            (named f2 "event" && no_labelb f2 && N.eqb event_ty (f_ty f2)) && (named f3 "topics" && no_labelb f3 && hashesb (f_ty f3))
        | _ => false end)
    | _ => false end).
Lemma eventsb_ok event_ty id : eventsb event_ty id = true -> events_type types event_ty id.
Proof.
  intros H. apply ordinaryb_ok in H. destruct H as (d & Ho & H). destruct d as [| |r| | | | |]; try discriminate.
  apply ordinaryb_ok in H. destruct H as (d & Hr & H). destruct d as [[|f1 [|f2 [|f3 [|] ] ] ]| | | | | | |]; try discriminate.
  apply andb_prop in H. destruct H as [H H3]. apply andb_prop in H. destruct H as [H1 H2].
  exists r, f1, f2, f3. refine (conj Ho (conj Hr (conj _ (conj _ _)))).
  - exact (is_ok _ _ _ _ _ _ (no_label_ok f1) phaseb_ok H1).
  - exact (is_ok _ _ _ _ (N.eqb event_ty) _ (no_label_ok f2) (fun j => proj1 (N.eqb_eq event_ty j)) H2).
  - exact (is_ok _ _ _ _ _ _ (no_label_ok f3) hashesb_ok H3).
Qed.
End Checks.

(** ** Chains *)

(** The entry Events of the pallet System. *)
Definition events_prefix : bytes := Twox.twox_128 (ascii_bytes "System") ++ Twox.twox_128 (ascii_bytes "Events").

Section Real.
Variable types : list ty.
Variables (event_ty vt balances system : N).
Local Notation entry key value docs := (storage_entry Blake2b.blake2_128 Twox.twox_64 types key value (EntryMeta (EPlain vt) docs)).

(** Transfers are among the events that are known: event 2 of the pallet Balances. *)
Definition transfer_event (from to : bytes) (amount : N) : event :=
  Event balances 2 "Balances" "Transfer" [("from", Who from); ("to", Who to); ("amount", Amount amount)].
Definition transfers_known : Prop := forall from to amount,
  is_bytes from -> List.length from = 32%nat -> is_bytes to -> List.length to = 32%nat -> (amount < 2 ^ 128)%N ->
  event_known types event_ty (transfer_event from to amount).

(** So are the reports that an extrinsic was executed: event 0 of the pallet System. *)
Definition success_event (d : dispatch) : event := Event system 0 "System" "ExtrinsicSuccess" [("dispatch_info", Executed d)].
Definition successes_known : Prop := forall d, (di_time d < 2 ^ 64)%N -> (di_size d < 2 ^ 64)%N -> event_known types event_ty (success_event d).

(** Whatever happened is seen. *)
Definition events_seen : Prop := forall docs l, (N.of_nat (List.length l) < 2 ^ 32)%N -> Forall (happening_known types event_ty) l ->
  exists x, entry events_prefix (events_bytes l) docs = Ok (Storage KPlain x (docs_text docs)) /\
    forall b58 icon specs name bits, map (show bits) (card_ext b58 icon specs name x 0 true) = events_lines b58 specs l.

(** Whatever is seen has happened. *)
Definition seen_events : Prop := forall docs l, (N.of_nat (List.length l) < 2 ^ 32)%N -> Forall (happening_known types event_ty) l ->
  forall icon specs name key value k y d,
  (decimals specs < 256)%N -> is_bytes key -> is_bytes value ->
  entry key value docs = Ok (Storage k y d) ->
  map (show Address.bits_text) (card_ext Address.address icon specs name y 0 true) = events_lines Address.address specs l ->
  value = events_bytes l.

Hypothesis usables : forall id, (id < N.of_nat (List.length types))%N -> usable types id.
Hypothesis apart : told_apart types.
Hypothesis is_events : eventsb types event_ty vt = true.
Hypothesis is_transfer : eventb types event_ty balances 2 "Balances" "Transfer" [("from", IsWho); ("to", IsWho); ("amount", IsAmount)] = true.

Lemma really_reported : eventb types event_ty system 0 "System" "ExtrinsicSuccess" [("dispatch_info", IsExecuted)] = true -> successes_known.
Proof.
  intros H d H1 H2. apply eventb_ok; [exact H|]. cbn [ev_args success_event].
  apply Forall_cons; [|apply Forall_nil]. cbn [snd argument_in_range]. auto.
Qed.

Lemma events_prefix_ok : is_bytes events_prefix /\ List.length events_prefix = 32%nat.
Proof. vm_compute. split; [|reflexivity]. repeat constructor. Qed.

Lemma really_seen : transfers_known /\ events_seen /\ seen_events.
Proof.
  pose proof (PropTransferReal.usable_acyclic types usables) as Ha. pose proof (eventsb_ok types event_ty vt is_events) as Ht.
  destruct PropAddress.c67_formats as [F1 F2]. destruct events_prefix_ok as [P1 P2]. split; [|split].
  - intros from to amount H1 H2 H3 H4 H5. apply eventb_ok; [exact is_transfer|]. cbn [ev_args transfer_event].
    repeat apply Forall_cons; try apply Forall_nil; cbn [snd argument_in_range]; auto.
  - intros docs l Hn Hl. exact (c81_events Blake2b.blake2_128 Twox.twox_64 types event_ty vt docs events_prefix l Ha Ht P1 P2 Hn Hl).
  - intros docs l Hn Hl icon specs name key value k y d Hd Bk Bv H E.
    exact (c81_only_events Blake2b.blake2_128 Twox.twox_64 types event_ty vt docs l Ha apart Ht Hn Hl _ icon specs name _ key value k y d F1 F2 Hd Bk Bv H E).
Qed.
End Real.

Lemma polkadot9430_events : eventsb TestPolkadot9430.md_types 20 18 = true. Proof. vm_compute. reflexivity. Qed.
Lemma polkadot9430_transfer : eventb TestPolkadot9430.md_types 20 5 2 "Balances" "Transfer" [("from", IsWho); ("to", IsWho); ("amount", IsAmount)] = true.
Proof. vm_compute. reflexivity. Qed.
Lemma polkadot9430_success : eventb TestPolkadot9430.md_types 20 0 0 "System" "ExtrinsicSuccess" [("dispatch_info", IsExecuted)] = true.
Proof. vm_compute. reflexivity. Qed.
Theorem c81_polkadot9430 : transfers_known TestPolkadot9430.md_types 20 5 /\ successes_known TestPolkadot9430.md_types 20 0 /\
  events_seen TestPolkadot9430.md_types 20 18 /\ seen_events TestPolkadot9430.md_types 20 18.
Proof.
  destruct (really_seen _ _ _ _ PropReal.polkadot9430_usable PropTransferReal.polkadot9430_apart polkadot9430_events polkadot9430_transfer) as (H1 & H2).
  exact (conj H1 (conj (really_reported _ _ _ polkadot9430_success) H2)).
Qed.
Print Assumptions c81_polkadot9430.

Lemma polkadot15_events : eventsb TestPolkadot15.md_types 20 18 = true. Proof. vm_compute. reflexivity. Qed.
Lemma polkadot15_transfer : eventb TestPolkadot15.md_types 20 5 2 "Balances" "Transfer" [("from", IsWho); ("to", IsWho); ("amount", IsAmount)] = true.
Proof. vm_compute. reflexivity. Qed.
Lemma polkadot15_success : eventb TestPolkadot15.md_types 20 0 0 "System" "ExtrinsicSuccess" [("dispatch_info", IsExecuted)] = true.
Proof. vm_compute. reflexivity. Qed.
Theorem c81_polkadot15 : transfers_known TestPolkadot15.md_types 20 5 /\ successes_known TestPolkadot15.md_types 20 0 /\
  events_seen TestPolkadot15.md_types 20 18 /\ seen_events TestPolkadot15.md_types 20 18.
Proof.
  destruct (really_seen _ _ _ _ PropReal.polkadot15_usable PropTransferReal.polkadot15_apart polkadot15_events polkadot15_transfer) as (H1 & H2).
  exact (conj H1 (conj (really_reported _ _ _ polkadot15_success) H2)).
Qed.
Print Assumptions c81_polkadot15.

Lemma polkadot1003003_events : eventsb TestUnchecked15.md_types 21 19 = true. Proof. vm_compute. reflexivity. Qed.
Lemma polkadot1003003_transfer : eventb TestUnchecked15.md_types 21 5 2 "Balances" "Transfer" [("from", IsWho); ("to", IsWho); ("amount", IsAmount)] = true.
Proof. vm_compute. reflexivity. Qed.
Lemma polkadot1003003_success : eventb TestUnchecked15.md_types 21 0 0 "System" "ExtrinsicSuccess" [("dispatch_info", IsExecuted)] = true.
Proof. vm_compute. reflexivity. Qed.
Theorem c81_polkadot1003003 : transfers_known TestUnchecked15.md_types 21 5 /\ successes_known TestUnchecked15.md_types 21 0 /\
  events_seen TestUnchecked15.md_types 21 19 /\ seen_events TestUnchecked15.md_types 21 19.
Proof.
  destruct (really_seen _ _ _ _ PropReal.unchecked15_usable PropTransferReal.polkadot1003003_apart polkadot1003003_events polkadot1003003_transfer) as (H1 & H2).
  exact (conj H1 (conj (really_reported _ _ _ polkadot1003003_success) H2)).
Qed.
Print Assumptions c81_polkadot1003003.

Lemma astar_events : eventsb TestAstar.md_types 20 18 = true. Proof. vm_compute. reflexivity. Qed.
Lemma astar_transfer : eventb TestAstar.md_types 20 31 2 "Balances" "Transfer" [("from", IsWho); ("to", IsWho); ("amount", IsAmount)] = true.
Proof. vm_compute. reflexivity. Qed.
Lemma astar_success : eventb TestAstar.md_types 20 10 0 "System" "ExtrinsicSuccess" [("dispatch_info", IsExecuted)] = true.
Proof. vm_compute. reflexivity. Qed.
Theorem c81_astar : transfers_known TestAstar.md_types 20 31 /\ successes_known TestAstar.md_types 20 10 /\
  events_seen TestAstar.md_types 20 18 /\ seen_events TestAstar.md_types 20 18.
Proof.
  destruct (really_seen _ _ _ _ PropReal.astar_usable PropTransferReal.astar_apart astar_events astar_transfer) as (H1 & H2).
  exact (conj H1 (conj (really_reported _ _ _ astar_success) H2)).
Qed.
Print Assumptions c81_astar.

Lemma bifrost_events : eventsb TestBifrost.md_types 20 18 = true. Proof. vm_compute. reflexivity. Qed.
Lemma bifrost_transfer : eventb TestBifrost.md_types 20 10 2 "Balances" "Transfer" [("from", IsWho); ("to", IsWho); ("amount", IsAmount)] = true.
Proof. vm_compute. reflexivity. Qed.
Lemma bifrost_success : eventb TestBifrost.md_types 20 0 0 "System" "ExtrinsicSuccess" [("dispatch_info", IsExecuted)] = true.
Proof. vm_compute. reflexivity. Qed.
Theorem c81_bifrost : transfers_known TestBifrost.md_types 20 10 /\ successes_known TestBifrost.md_types 20 0 /\
  events_seen TestBifrost.md_types 20 18 /\ seen_events TestBifrost.md_types 20 18.
Proof.
  destruct (really_seen _ _ _ _ PropReal.bifrost_usable PropTransferReal.bifrost_apart bifrost_events bifrost_transfer) as (H1 & H2).
  exact (conj H1 (conj (really_reported _ _ _ bifrost_success) H2)).
Qed.
Print Assumptions c81_bifrost.

Lemma statemint_events : eventsb TestStatemint.md_types 20 18 = true. Proof. vm_compute. reflexivity. Qed.
Lemma statemint_transfer : eventb TestStatemint.md_types 20 10 2 "Balances" "Transfer" [("from", IsWho); ("to", IsWho); ("amount", IsAmount)] = true.
Proof. vm_compute. reflexivity. Qed.
Lemma statemint_success : eventb TestStatemint.md_types 20 0 0 "System" "ExtrinsicSuccess" [("dispatch_info", IsExecuted)] = true.
Proof. vm_compute. reflexivity. Qed.
Theorem c81_statemint : transfers_known TestStatemint.md_types 20 10 /\ successes_known TestStatemint.md_types 20 0 /\
  events_seen TestStatemint.md_types 20 18 /\ seen_events TestStatemint.md_types 20 18.
Proof.
  destruct (really_seen _ _ _ _ PropWhole.statemint_usable PropTransferReal.statemint_apart statemint_events statemint_transfer) as (H1 & H2).
  exact (conj H1 (conj (really_reported _ _ _ statemint_success) H2)).
Qed.
Print Assumptions c81_statemint.

Lemma acala2012_events : eventsb TestAcala2012.md_types 17 15 = true. Proof. vm_compute. reflexivity. Qed.
Lemma acala2012_transfer : eventb TestAcala2012.md_types 17 10 2 "Balances" "Transfer" [("from", IsWho); ("to", IsWho); ("amount", IsAmount)] = true.
Proof. vm_compute. reflexivity. Qed.
Theorem c81_acala2012 : transfers_known TestAcala2012.md_types 17 10 /\ events_seen TestAcala2012.md_types 17 15 /\ seen_events TestAcala2012.md_types 17 15.
Proof.
  destruct (really_seen _ _ _ _ PropReal.acala2012_usable PropAccount.acala2012_apart acala2012_events acala2012_transfer) as (H1 & H2).
  exact (conj H1 H2).
Qed.
Print Assumptions c81_acala2012.

Lemma acala2200_events : eventsb TestAcala2200.md_types 20 18 = true. Proof. vm_compute. reflexivity. Qed.
Lemma acala2200_transfer : eventb TestAcala2200.md_types 20 10 2 "Balances" "Transfer" [("from", IsWho); ("to", IsWho); ("amount", IsAmount)] = true.
Proof. vm_compute. reflexivity. Qed.
Lemma acala2200_success : eventb TestAcala2200.md_types 20 0 0 "System" "ExtrinsicSuccess" [("dispatch_info", IsExecuted)] = true.
Proof. vm_compute. reflexivity. Qed.
Theorem c81_acala2200 : transfers_known TestAcala2200.md_types 20 10 /\ successes_known TestAcala2200.md_types 20 0 /\
  events_seen TestAcala2200.md_types 20 18 /\ seen_events TestAcala2200.md_types 20 18.
Proof.
  destruct (really_seen _ _ _ _ PropReal.acala2200_usable PropAccount.acala2200_apart acala2200_events acala2200_transfer) as (H1 & H2).
  exact (conj H1 (conj (really_reported _ _ _ acala2200_success) H2)).
Qed.
Print Assumptions c81_acala2200.

(** A concrete block on Polkadot: Bob has sent money to an account of ones, which paid no fee to
    anybody, then the extrinsic was reported, and something happened at the end. *)
Definition ones : bytes := repeat 1%N 32.
Definition block : list happening :=
  [ Happening (InExtrinsic 1) (Event 5 2 "Balances" "Transfer" [("from", Who PropTransferReal.bob); ("to", Who ones); ("amount", Amount 15000000000)]) [];
    Happening (InExtrinsic 1) (Event 0 0 "System" "ExtrinsicSuccess" [("dispatch_info", Executed (Dispatch 150000000 3593 Normal true))]) [];
    Happening AtEnd (Event 19 6 "Treasury" "Deposit" [("value", Amount 7)]) [ones];
    Happening AtStart (Event 7 5 "Staking" "StakersElected" []) [] ].

Definition events_error (key value : bytes) : option storage_err :=
  match storage_entry Blake2b.blake2_128 Twox.twox_64 TestPolkadot15.md_types key value (EntryMeta (EPlain 18) []) with Err e => Some e | _ => None end.

Lemma block_known : Forall (happening_known TestPolkadot15.md_types 20) block.
Proof.
  assert (B : is_bytes PropTransferReal.bob /\ List.length PropTransferReal.bob = 32%nat) by (split; [apply PropTransferReal.bytes_checked|]; reflexivity).
  assert (O : is_bytes ones /\ List.length ones = 32%nat) by (split; [apply PropTransferReal.bytes_checked|]; reflexivity).
  repeat apply Forall_cons; try apply Forall_nil; (refine (conj _ (conj _ (conj _ _)));
    [cbn [ha_phase]; try exact I; reflexivity| |reflexivity|cbn [ha_topics]; repeat apply Forall_cons; try apply Forall_nil; try exact O]).
  all: apply eventb_ok; [vm_compute; reflexivity|]; cbn [ev_args ha_event]; repeat apply Forall_cons; try apply Forall_nil; cbn [snd argument_in_range]; try assumption.
  all: try split; reflexivity.
Qed.

Example c81_example : (N.of_nat (List.length block) < 2 ^ 32)%N /\ Forall (happening_known TestPolkadot15.md_types 20) block /\
  hex_encode events_prefix = "26aa394eea5630e07c48ae0c9558cef780d41e5e16056765bc8461851072c9d7" /\
  hex_encode (events_bytes block) =
    "10000100000005028eaf04151687736326c9fea17e25fc5287613693c912909cb226aa4794f26a48010101010101010101010101010101010101010101010101010101010101010100d6117e03000000000000000000000000000100000000000246c32325380000000113060700000000000000000000000000000004010101010101010101010101010101010101010101010101010101010101010102070500" /\
  events_lines (fun _ b _ => hex_encode b) (ShortSpecs 0 10 "DOT") block =
  ["Sequence: 4 element(s)";
   "  Struct: 3 field(s)";
   "    Field Name: phase";
   "      Enum";
   "        Enum Variant Name: ApplyExtrinsic";
   "          u32: 1";
   "    Field Name: event";
   "      Pallet: Balances";
   "        Event: Transfer";
   "          Field Name: from";
   "            Id: 8eaf04151687736326c9fea17e25fc5287613693c912909cb226aa4794f26a48";
   "          Field Name: to";
   "            Id: 0101010101010101010101010101010101010101010101010101010101010101";
   "          Field Name: amount";
   "            Balance: 1.5000000000 DOT";
   "    Field Name: topics";
   "      Sequence: 0 element(s)";
   "  Struct: 3 field(s)";
   "    Field Name: phase";
   "      Enum";
   "        Enum Variant Name: ApplyExtrinsic";
   "          u32: 1";
   "    Field Name: event";
   "      Pallet: System";
   "        Event: ExtrinsicSuccess";
   "          Field Name: dispatch_info";
   "            Struct: 3 field(s)";
   "              Field Name: weight";
   "                Struct: 2 field(s)";
   "                  Field Name: ref_time";
   "                    u64: 150000000";
   "                  Field Name: proof_size";
   "                    u64: 3593";
   "              Field Name: class";
   "                Enum";
   "                  Enum Variant Name: Normal";
   "              Field Name: pays_fee";
   "                Enum";
   "                  Enum Variant Name: Yes";
   "    Field Name: topics";
   "      Sequence: 0 element(s)";
   "  Struct: 3 field(s)";
   "    Field Name: phase";
   "      Enum";
   "        Enum Variant Name: Finalization";
   "    Field Name: event";
   "      Pallet: Treasury";
   "        Event: Deposit";
   "          Field Name: value";
   "            Balance Raw: 7";
   "    Field Name: topics";
   "      Sequence: 1 element(s)";
   "        H256: 0101010101010101010101010101010101010101010101010101010101010101";
   "  Struct: 3 field(s)";
   "    Field Name: phase";
   "      Enum";
   "        Enum Variant Name: Initialization";
   "    Field Name: event";
   "      Pallet: Staking";
   "        Event: StakersElected";
   "    Field Name: topics";
   "      Sequence: 0 element(s)"] /\
  events_error events_prefix (events_bytes block) = None /\
  events_error (events_prefix ++ [0]%N) (events_bytes block) = Some PlainKeyExceedsPrefix /\
  events_error (removelast events_prefix) (events_bytes block) = Some KeyShorterThanPrefix /\
  events_error events_prefix (events_bytes block ++ [0]%N) = Some (ParsingValue (SomeDataNotUsedBlob 161)) /\
  events_error events_prefix (removelast (events_bytes block)) = Some (ParsingValue (NoCompact 160)).
Proof.
  split; [reflexivity|]. split; [exact block_known|]. split; [vm_compute; reflexivity|].
  split; [vm_compute; reflexivity|]. split; [vm_compute; reflexivity|]. split; [vm_compute; reflexivity|].
  split; [vm_compute; reflexivity|]. split; [vm_compute; reflexivity|]. split; vm_compute; reflexivity.
Qed.
