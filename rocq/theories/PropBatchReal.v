(** C79 for chains whose metadata is in the repository. *)
From Coq Require Import Lia.
From Verif Require Import Base Compact Types Indicators Decode Sign Meta Balance Cards Spec SpecCards SpecSee SpecFault SpecTransfer SpecBatch Api ApiSign
  PropTransfer PropTransferReal PropBatch.
From Verif Require TestWestend TestPolkadot9430 TestPolkadot15 TestUnchecked15 TestAstar TestBifrost TestStatemint Address PropWhole PropReal PropSee.
Local Open Scope string_scope.
Local Open Scope list_scope.

(** Index of the pallet, index of the call, name of the call. *)
Definition call_place : Type := (N * N * string)%type.

(** An action by calls in these lists. *)
Inductive listed (transfers batches : list call_place) : action -> Prop :=
| Li_transfer i j name dest amount : In (i, j, name) transfers ->
    is_bytes dest -> List.length dest = 32%nat -> (amount < 2 ^ 128)%N -> listed transfers batches (Transfer i j name dest amount)
| Li_batch i j name l : In (i, j, name) batches ->
    (N.of_nat (List.length l) < 2 ^ 32)%N -> Forall (listed transfers batches) l -> listed transfers batches (Batch i j name l).

Definition batchb (types : list ty) (call_ty i j : N) (name : string) : bool :=
  match lookup types call_ty with
  | Some t => is_call_item (classify t) &&
      match t_def t with
      | TVariant pallets =>
          match by_index pallets i with
          | Some pallet => String.eqb (v_name pallet) "Utility" &&
              match v_fields pallet with
              | [f] =>
                  match lookup types (f_ty f) with
                  | Some inner => is_call_item (classify inner) &&
                      match t_def inner with
                      | TVariant calls =>
                          match by_index calls j with
                          | Some call => String.eqb (v_name call) name &&
                              match v_fields call with
                              | [fc] => named fc "calls" &&
                                  ordinaryb types (f_ty fc) (fun d => match d with TSequence id => N.eqb id call_ty | _ => false end)
                              | _ => false
                              end
                          | None => false
                          end
                      | _ => false
                      end
                  | None => false
                  end
              | _ => false
              end
          | None => false
          end
      | _ => false
      end
  | None => false
  end.

Lemma batchb_ok types call_ty i j name : batchb types call_ty i j name = true -> batch_call types call_ty i j name.
Proof.
  unfold batchb. intros H. destruct (lookup types call_ty) as [t|] eqn:E1; [|discriminate]. apply andb_prop in H. destruct H as [H1 H].
  apply item_ok in H1. destruct (t_def t) as [|pallets| | | | | |] eqn:E2; try discriminate.
  destruct (by_index pallets i) as [pallet|] eqn:E3; [|discriminate]. apply andb_prop in H. destruct H as [H2 H]. apply String.eqb_eq in H2.
  destruct (v_fields pallet) as [|f [|g r] ] eqn:E4; try discriminate. destruct (lookup types (f_ty f)) as [inner|] eqn:E5; [|discriminate].
  apply andb_prop in H. destruct H as [H3 H]. apply item_ok in H3. destruct (t_def inner) as [|calls| | | | | |] eqn:E6; try discriminate.
  destruct (by_index calls j) as [call|] eqn:E7; [|discriminate]. apply andb_prop in H. destruct H as [H4 H]. apply String.eqb_eq in H4.
  destruct (v_fields call) as [|fc [|g r] ] eqn:E8; try discriminate. apply andb_prop in H. destruct H as [H5 H]. apply named_ok in H5.
  apply ordinaryb_ok in H. destruct H as (d & Ho & H). destruct d; try discriminate. apply N.eqb_eq in H. subst.
  exists t, pallets, pallet, f, inner, calls, call, fc. repeat split; auto.
Qed.

Definition transfersb (types : list ty) (call_ty : N) (l : list call_place) : bool :=
  forallb (fun p => let '(i, j, name) := p in transferb types call_ty i j name && (i <? 256)%N && (j <? 256)%N) l.
Definition batchesb (types : list ty) (call_ty : N) (l : list call_place) : bool :=
  forallb (fun p => let '(i, j, name) := p in batchb types call_ty i j name && (i <? 256)%N && (j <? 256)%N) l.

Lemma listed_possible types call_ty transfers batches : transfersb types call_ty transfers = true -> batchesb types call_ty batches = true ->
  forall a, listed transfers batches a -> possible types call_ty a.
Proof.
  unfold transfersb, batchesb. rewrite !forallb_forall. intros H1 H2 a.
  induction a as [i j name dest amount|i j name l IH] using action_induction; intros H; inversion H as [? ? ? ? ? Hin Hb H32 Ha|? ? ? ? Hin Hn Hl]; subst.
  - specialize (H1 _ Hin). cbn beta iota in H1. apply andb_prop in H1. destruct H1 as [H1 K2]. apply andb_prop in H1. destruct H1 as [K0 K1].
    apply N.ltb_lt in K1, K2. apply Po_transfer; auto. apply transferb_ok, K0.
  - specialize (H2 _ Hin). cbn beta iota in H2. apply andb_prop in H2. destruct H2 as [H2 K2]. apply andb_prop in H2. destruct H2 as [K0 K1].
    apply N.ltb_lt in K1, K2. apply Po_batch; auto; [apply batchb_ok, K0|].
    rewrite Forall_forall in *. intros x Hx. exact (IH x Hx (Hl x Hx)).
Qed.

Section Real.
Context {ME : Type}.
Variable md : metadata unit ME.
Variable types : list ty.
Variables (call_ty version : N) (asset hashed : bool).
Variables transfers batches : list call_place.

(** Whoever signs a batch sees it. *)
Definition batches_seen : Prop := forall s g a,
  sg_version s = version -> proper s -> g = None \/ g = Some (sg_genesis s) ->
  listed transfers batches a -> (N.of_nat (List.length (action_bytes a)) < 2 ^ 32)%N ->
  exists call xs,
    parsed md g (payload (action_bytes a) (signed_bytes asset hashed s)) = Ok (TransactionParsed (inl call) xs) /\
    parsed_unmarked md g (action_bytes a ++ signed_bytes asset hashed s) = Ok (call, xs) /\
    forall b58 icon specs chain_name bits,
      map (show bits) (card_call b58 icon specs chain_name call 0) = action_lines b58 specs a /\
      map (show bits) (card_extensions b58 icon specs chain_name xs) = signed_lines asset hashed specs chain_name s.

(** Whoever sees a batch signs it. *)
Definition batches_signed : Prop := forall s g a,
  sg_version s = version -> proper s -> g = None \/ g = Some (sg_genesis s) ->
  listed transfers batches a -> (N.of_nat (List.length (action_bytes a)) < 2 ^ 32)%N ->
  forall b58 icon specs chain_name bits data call xs,
  base58_faithful b58 -> bits_faithful bits -> (decimals specs < 256)%N -> is_bytes data ->
  parsed md g data = Ok (TransactionParsed (inl call) xs) ->
  map (show bits) (card_call b58 icon specs chain_name call 0) = action_lines b58 specs a ->
  map (show bits) (card_extensions b58 icon specs chain_name xs) = signed_lines asset hashed specs chain_name s ->
  data = payload (action_bytes a) (signed_bytes asset hashed s).

Variable exts : list ext_meta.
Hypothesis md_types : m_types md = portable types.
Hypothesis usables : forall id, (id < N.of_nat (List.length types))%N -> usable types id.
Hypothesis is_call : m_call_ty md = inl call_ty.
Hypothesis are_transfers : transfersb types call_ty transfers = true.
Hypothesis are_batches : batchesb types call_ty batches = true.
Hypothesis is_exts : m_signed_extensions md = inl exts.
Hypothesis usual : extensionsb types exts = true.
Hypothesis takers : takes exts = order asset hashed.
Variable nv : spec_name_version.
Hypothesis is_spec : m_spec_name_version md = inl nv.
Hypothesis is_version : printed_spec_version nv = dec_string version.
Hypothesis apart : told_apart types.

Lemma batches_real : batches_seen /\ batches_signed.
Proof.
  pose proof (usable_acyclic types usables) as Ha. pose proof (listed_possible types call_ty _ _ are_transfers are_batches) as Hpo.
  pose proof (the_chain_ok md types md_types) as Hch. split.
  - intros s g a Hv Hp Hg Hl Hlen.
    destruct (c79_batch ME (the_chain md types) call_ty exts nv s g a Ha is_call is_exts (extensionsb_ok _ _ usual) is_spec) as (call & xs & T1 & T2 & L); auto.
    { rewrite Hv. exact is_version. }
    exists call, xs. unfold transaction, transaction_unmarked in T1, T2. rewrite Hch in T1, T2.
    pose proof (fun specs cn => usual_takes asset hashed s specs cn exts takers) as U.
    rewrite (proj1 (U (ShortSpecs 0 0 "") "")) in T1, T2.
    split; [exact T1|]. split; [exact T2|]. intros b58 icon specs cn bits. destruct (L b58 icon specs cn bits) as (L1 & L2).
    split; [exact L1|]. rewrite L2. apply U.
  - intros s g a Hv Hp Hg Hl Hlen b58 icon specs cn bits data call xs F1 F2 Hd Hdata T L1 L2.
    destruct (usual_takes asset hashed s specs cn exts takers) as (U1 & U2). rewrite <- U1. rewrite <- U2 in L2. unfold parsed in T. rewrite <- Hch in T.
    refine (c79_only_batch ME (the_chain md types) call_ty exts nv s g a Ha apart is_call is_exts (extensionsb_ok _ _ usual) is_spec _ Hp Hg (Hpo a Hl) Hlen
      b58 icon specs cn bits data call xs F1 F2 Hd Hdata T L1 L2).
    rewrite Hv. exact is_version.
Qed.
End Real.

(** TestWestend, spec version 9111. *)
Definition westend_transfers : list call_place := [(4, 0, "transfer"); (4, 3, "transfer_keep_alive")]%N.
Definition westend_batches : list call_place := [(16, 0, "batch"); (16, 2, "batch_all")]%N.
Lemma westend_are_transfers : transfersb TestWestend.md_types 267 westend_transfers = true. Proof. vm_compute. reflexivity. Qed.
Lemma westend_are_batches : batchesb TestWestend.md_types 267 westend_batches = true. Proof. vm_compute. reflexivity. Qed.
Theorem c79_westend : batches_seen TestWestend.md 9111 false false westend_transfers westend_batches /\
  batches_signed TestWestend.md 9111 false false westend_transfers westend_batches.
Proof.
  exact (batches_real _ _ _ _ _ _ _ _ _ westend_md PropWhole.westend_usable westend_call westend_are_transfers westend_are_batches westend_is_exts westend_usual westend_takes _ westend_is_spec westend_version PropSee.westend_told_apart).
Qed.
Print Assumptions c79_westend.

(** TestPolkadot9430, spec version 9430. *)
Definition polkadot9430_transfers : list call_place := [(5, 7, "transfer"); (5, 3, "transfer_keep_alive"); (5, 0, "transfer_allow_death")]%N.
Definition polkadot9430_batches : list call_place := [(26, 0, "batch"); (26, 2, "batch_all"); (26, 4, "force_batch")]%N.
Lemma polkadot9430_are_transfers : transfersb TestPolkadot9430.md_types 79 polkadot9430_transfers = true. Proof. vm_compute. reflexivity. Qed.
Lemma polkadot9430_are_batches : batchesb TestPolkadot9430.md_types 79 polkadot9430_batches = true. Proof. vm_compute. reflexivity. Qed.
Theorem c79_polkadot9430 : batches_seen TestPolkadot9430.md 9430 false false polkadot9430_transfers polkadot9430_batches /\
  batches_signed TestPolkadot9430.md 9430 false false polkadot9430_transfers polkadot9430_batches.
Proof.
  exact (batches_real _ _ _ _ _ _ _ _ _ polkadot9430_md PropReal.polkadot9430_usable polkadot9430_call polkadot9430_are_transfers polkadot9430_are_batches polkadot9430_is_exts polkadot9430_usual polkadot9430_takes _ polkadot9430_is_spec polkadot9430_version polkadot9430_apart).
Qed.
Print Assumptions c79_polkadot9430.

(** TestPolkadot15, spec version 1000001. *)
Definition polkadot15_transfers : list call_place := [(5, 7, "transfer"); (5, 3, "transfer_keep_alive"); (5, 0, "transfer_allow_death")]%N.
Definition polkadot15_batches : list call_place := [(26, 0, "batch"); (26, 2, "batch_all"); (26, 4, "force_batch")]%N.
Lemma polkadot15_are_transfers : transfersb TestPolkadot15.md_types 68 polkadot15_transfers = true. Proof. vm_compute. reflexivity. Qed.
Lemma polkadot15_are_batches : batchesb TestPolkadot15.md_types 68 polkadot15_batches = true. Proof. vm_compute. reflexivity. Qed.
Theorem c79_polkadot15 : batches_seen TestPolkadot15.md 1000001 false false polkadot15_transfers polkadot15_batches /\
  batches_signed TestPolkadot15.md 1000001 false false polkadot15_transfers polkadot15_batches.
Proof.
  exact (batches_real _ _ _ _ _ _ _ _ _ polkadot15_md PropReal.polkadot15_usable polkadot15_call polkadot15_are_transfers polkadot15_are_batches polkadot15_is_exts polkadot15_usual polkadot15_takes _ polkadot15_is_spec polkadot15_version polkadot15_apart).
Qed.
Print Assumptions c79_polkadot15.

(** TestUnchecked15, spec version 1003003. *)
Definition polkadot1003003_transfers : list call_place := [(5, 3, "transfer_keep_alive"); (5, 0, "transfer_allow_death")]%N.
Definition polkadot1003003_batches : list call_place := [(26, 0, "batch"); (26, 2, "batch_all"); (26, 4, "force_batch")]%N.
Lemma polkadot1003003_are_transfers : transfersb TestUnchecked15.md_types 93 polkadot1003003_transfers = true. Proof. vm_compute. reflexivity. Qed.
Lemma polkadot1003003_are_batches : batchesb TestUnchecked15.md_types 93 polkadot1003003_batches = true. Proof. vm_compute. reflexivity. Qed.
Theorem c79_polkadot1003003 : batches_seen TestUnchecked15.md 1003003 false true polkadot1003003_transfers polkadot1003003_batches /\
  batches_signed TestUnchecked15.md 1003003 false true polkadot1003003_transfers polkadot1003003_batches.
Proof.
  exact (batches_real _ _ _ _ _ _ _ _ _ polkadot1003003_md PropReal.unchecked15_usable polkadot1003003_call polkadot1003003_are_transfers polkadot1003003_are_batches polkadot1003003_is_exts polkadot1003003_usual polkadot1003003_takes _ polkadot1003003_is_spec polkadot1003003_version polkadot1003003_apart).
Qed.
Print Assumptions c79_polkadot1003003.

(** TestAstar, spec version 66. *)
Definition astar_transfers : list call_place := [(31, 7, "transfer"); (31, 3, "transfer_keep_alive"); (31, 0, "transfer_allow_death")]%N.
Definition astar_batches : list call_place := [(11, 0, "batch"); (11, 2, "batch_all"); (11, 4, "force_batch")]%N.
Lemma astar_are_transfers : transfersb TestAstar.md_types 164 astar_transfers = true. Proof. vm_compute. reflexivity. Qed.
Lemma astar_are_batches : batchesb TestAstar.md_types 164 astar_batches = true. Proof. vm_compute. reflexivity. Qed.
Theorem c79_astar : batches_seen TestAstar.md 66 false false astar_transfers astar_batches /\
  batches_signed TestAstar.md 66 false false astar_transfers astar_batches.
Proof.
  exact (batches_real _ _ _ _ _ _ _ _ _ astar_md PropReal.astar_usable astar_call astar_are_transfers astar_are_batches astar_is_exts astar_usual astar_takes _ astar_is_spec astar_version astar_apart).
Qed.
Print Assumptions c79_astar.

(** TestBifrost, spec version 982. *)
Definition bifrost_transfers : list call_place := [(10, 7, "transfer"); (10, 3, "transfer_keep_alive"); (10, 0, "transfer_allow_death")]%N.
Definition bifrost_batches : list call_place := [(50, 0, "batch"); (50, 2, "batch_all"); (50, 4, "force_batch")]%N.
Lemma bifrost_are_transfers : transfersb TestBifrost.md_types 58 bifrost_transfers = true. Proof. vm_compute. reflexivity. Qed.
Lemma bifrost_are_batches : batchesb TestBifrost.md_types 58 bifrost_batches = true. Proof. vm_compute. reflexivity. Qed.
Theorem c79_bifrost : batches_seen TestBifrost.md 982 false false bifrost_transfers bifrost_batches /\
  batches_signed TestBifrost.md 982 false false bifrost_transfers bifrost_batches.
Proof.
  exact (batches_real _ _ _ _ _ _ _ _ _ bifrost_md PropReal.bifrost_usable bifrost_call bifrost_are_transfers bifrost_are_batches bifrost_is_exts bifrost_usual bifrost_takes _ bifrost_is_spec bifrost_version bifrost_apart).
Qed.
Print Assumptions c79_bifrost.

(** TestStatemint, spec version 1002000. *)
Definition statemint_transfers : list call_place := [(10, 3, "transfer_keep_alive"); (10, 0, "transfer_allow_death")]%N.
Definition statemint_batches : list call_place := [(40, 0, "batch"); (40, 2, "batch_all"); (40, 4, "force_batch")]%N.
Lemma statemint_are_transfers : transfersb TestStatemint.md_types 343 statemint_transfers = true. Proof. vm_compute. reflexivity. Qed.
Lemma statemint_are_batches : batchesb TestStatemint.md_types 343 statemint_batches = true. Proof. vm_compute. reflexivity. Qed.
Theorem c79_statemint : batches_seen TestStatemint.md 1002000 true false statemint_transfers statemint_batches /\
  batches_signed TestStatemint.md 1002000 true false statemint_transfers statemint_batches.
Proof.
  exact (batches_real _ _ _ _ _ _ _ _ _ statemint_md PropWhole.statemint_usable statemint_call statemint_are_transfers statemint_are_batches statemint_is_exts statemint_usual statemint_takes _ statemint_is_spec statemint_version statemint_apart).
Qed.
Print Assumptions c79_statemint.

(** A batch with a transfer and a batch with a transfer and an empty batch. *)
Definition example_batch : action :=
  Batch 16 2 "batch_all" [Transfer 4 3 "transfer_keep_alive" bob 100000000;
                          Batch 16 0 "batch" [Transfer 4 0 "transfer" (repeat 7%N 32) 1; Batch 16 0 "batch" []]].

Example c79_example : listed westend_transfers westend_batches example_batch /\
  (N.of_nat (List.length (action_bytes example_batch)) < 2 ^ 32)%N /\
  hex_encode (action_bytes example_batch) =
    "1002080403008eaf04151687736326c9fea17e25fc5287613693c912909cb226aa4794f26a480284d717100008040000070707070707070707070707070707070707070707070707070707070707070704100000" /\
  action_lines Address.address (ShortSpecs 42 12 "WND") example_batch =
  ["Pallet: Utility";
   "  Call: batch_all";
   "    Field Name: calls";
   "      Sequence: 2 element(s)";
   "        Pallet: Balances";
   "          Call: transfer_keep_alive";
   "            Field Name: dest";
   "              Enum";
   "                Enum Variant Name: Id";
   "                  Id: 5FHneW46xGXgs5mUiveU4sbTyGBzmstUspZC92UhjJM694ty";
   "            Field Name: value";
   "              Balance: 100.000000 uWND";
   "        Pallet: Utility";
   "          Call: batch";
   "            Field Name: calls";
   "              Sequence: 2 element(s)";
   "                Pallet: Balances";
   "                  Call: transfer";
   "                    Field Name: dest";
   "                      Enum";
   "                        Enum Variant Name: Id";
   "                          Id: 5CDvHBym6RLoxTdX9MS1acpaDbNxaFagqM5LpBiFGjWT6o1n";
   "                    Field Name: value";
   "                      Balance: 1 pWND";
   "                Pallet: Utility";
   "                  Call: batch";
   "                    Field Name: calls";
   "                      Sequence: 0 element(s)"].
Proof.
  split; [|split; [reflexivity|split; [vm_compute; reflexivity|vm_compute; reflexivity] ] ].
  assert (B : is_bytes bob /\ is_bytes (repeat 7%N 32)) by (split; apply bytes_checked; reflexivity). destruct B as [B1 B2].
  repeat (first [apply Li_transfer | apply Li_batch | apply Forall_cons | apply Forall_nil]); cbn [westend_transfers westend_batches In]; auto; reflexivity.
Qed.
