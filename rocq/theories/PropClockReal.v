(** C80 for chains whose metadata is in the repository. *)
From Coq Require Import Lia.
From Verif Require Import Base Compact Types Indicators Decode Sign Unchecked Meta Balance Cards Spec SpecCards SpecSee SpecFault SpecTransfer SpecClock SpecUnchecked Api ApiSign
  PropTransfer PropTransferReal PropIncludedReal PropClock.
From Verif Require TestWestend TestPolkadot9430 TestPolkadot15 TestUnchecked15 TestAstar TestBifrost TestStatemint TestAcala2012 TestAcala2200 Address PropWhole PropReal PropSee
  PropAccount PropInclude.
Local Open Scope string_scope.
Local Open Scope list_scope.

Definition clockb (types : list ty) (call_ty i j : N) : bool :=
  match lookup types call_ty with
  | Some t => is_call_item (classify t) &&
      match t_def t with
      | TVariant pallets =>
          match by_index pallets i with
          | Some pallet => String.eqb (v_name pallet) "Timestamp" &&
              match v_fields pallet with
              | [f] =>
                  match lookup types (f_ty f) with
                  | Some inner => is_call_item (classify inner) &&
                      match t_def inner with
                      | TVariant calls =>
                          match by_index calls j with
                          | Some call => String.eqb (v_name call) "set" &&
                              match v_fields call with
                              | [now] => named now "now" && match field_label now with HNone => true | _ => false end &&
                                  compactb types U64 (f_ty now)
                              | _ => false
                              end
                          | None => false
                          end
                      | _ => false
                      end
                  | None => false
                  end
              | _ => false
              end
          | None => false
          end
      | _ => false
      end
  | None => false
  end.

Lemma clockb_ok types call_ty i j : clockb types call_ty i j = true -> clock_call types call_ty i j.
Proof.
  unfold clockb. intros H. destruct (lookup types call_ty) as [t|] eqn:E1; [|discriminate]. apply andb_prop in H. destruct H as [H1 H].
  apply item_ok in H1. destruct (t_def t) as [|pallets| | | | | |] eqn:E2; try discriminate.
  destruct (by_index pallets i) as [pallet|] eqn:E3; [|discriminate]. apply andb_prop in H. destruct H as [H2 H]. apply String.eqb_eq in H2.
  destruct (v_fields pallet) as [|f [|g r] ] eqn:E4; try discriminate. destruct (lookup types (f_ty f)) as [inner|] eqn:E5; [|discriminate].
  apply andb_prop in H. destruct H as [H3 H]. apply item_ok in H3. destruct (t_def inner) as [|calls| | | | | |] eqn:E6; try discriminate.
  destruct (by_index calls j) as [call|] eqn:E7; [|discriminate]. apply andb_prop in H. destruct H as [H4 H]. apply String.eqb_eq in H4.
  destruct (v_fields call) as [|fn [|g r] ] eqn:E8; try discriminate. apply andb_prop in H. destruct H as [H5 H]. apply andb_prop in H5. destruct H5 as [H5 H6].
  apply named_ok in H5. apply compactb_ok in H. destruct (field_label fn) eqn:E9; try discriminate.
  exists t, pallets, pallet, f, inner, calls, call, fn. refine (conj E1 (conj H1 (conj E2 (conj E3 (conj H2 (conj E4 (conj E5 (conj H3 (conj E6 (conj E7 (conj H4 (conj E8 (conj H5 (conj E9 H)))))))))))))).
Qed.

Section Real.
Context {ME : Type}.
Variable md : metadata unit ME.
Variable types : list ty.
Variables (i j : N).

(** Every time is shown: length, version 4, pallet, call, compact number. *)
Definition times_seen : Prop := forall now, (now < 2 ^ 64)%N ->
  exists d, result (decode_as_unchecked_extrinsic (slice_buffer (inherent 4 (i :: j :: compact_enc now))) md) = Ok (UxUnsigned d) /\
    forall b58 icon specs chain_name bits,
      map (show bits) (card_call b58 icon specs chain_name d 0) =
      ["Pallet: Timestamp"; "  Call: set"; "    Field Name: now"; "      u64: " ++ dec_string now]%string.

(** What is shown is set. *)
Definition seen_times : Prop := forall now, (now < 2 ^ 64)%N ->
  forall b58 icon specs chain_name bits data d,
  base58_faithful b58 -> bits_faithful bits -> (decimals specs < 256)%N -> is_bytes data ->
  result (decode_as_unchecked_extrinsic (slice_buffer data) md) = Ok (UxUnsigned d) ->
  map (show bits) (card_call b58 icon specs chain_name d 0) =
    ["Pallet: Timestamp"; "  Call: set"; "    Field Name: now"; "      u64: " ++ dec_string now]%string ->
  exists following, data = inherent 4 ((i :: j :: compact_enc now) ++ following).

Lemma times_real p : m_types md = portable types -> (forall id, (id < N.of_nat (List.length types))%N -> usable types id) ->
  m_extrinsic_type_params md = inl p -> m_call_ty md = inl (ep_call p) -> m_extrinsic_version md = inl 4%N ->
  clockb types (ep_call p) i j = true -> (i < 256)%N -> (j < 256)%N -> told_apart types -> times_seen /\ seen_times.
Proof.
  intros Ht Hu Hp Hc Hv Hk Hi Hj Ha. apply clockb_ok in Hk. pose proof (usable_acyclic types Hu) as Hac. split.
  - intros now Hn. destruct (c80_clock ME (the_chain md types) p 4 i j now) as (d & U & L); try assumption; [reflexivity|].
    unfold unchecked_extrinsic in U. rewrite (the_chain_ok md types Ht) in U. exists d. split; [exact U|exact L].
  - intros now Hn b58 icon specs cn bits data d F1 F2 Hd Hb U L. rewrite <- (the_chain_ok md types Ht) in U.
    exact (c80_only_clock ME (the_chain md types) p 4 i j now Hac Ha Hp Hc Hv Hk Hi Hj Hn b58 icon specs cn bits data d F1 F2 Hd Hb U L).
Qed.
End Real.

(** TestWestend, spec version 9111. *)
Lemma westend_clock : clockb TestWestend.md_types (ep_call westend_params) 2 0 = true. Proof. vm_compute. reflexivity. Qed.
Theorem c80_westend : times_seen TestWestend.md 2 0 /\ seen_times TestWestend.md 2 0.
Proof. exact (times_real _ _ _ _ _ westend_md PropWhole.westend_usable westend_is_params westend_call westend_extrinsic_version westend_clock eq_refl eq_refl PropSee.westend_told_apart). Qed.
Print Assumptions c80_westend.

(** TestPolkadot9430, spec version 9430. *)
Lemma polkadot9430_clock : clockb TestPolkadot9430.md_types (ep_call polkadot9430_params) 3 0 = true. Proof. vm_compute. reflexivity. Qed.
Theorem c80_polkadot9430 : times_seen TestPolkadot9430.md 3 0 /\ seen_times TestPolkadot9430.md 3 0.
Proof. exact (times_real _ _ _ _ _ polkadot9430_md PropReal.polkadot9430_usable polkadot9430_is_params polkadot9430_call polkadot9430_extrinsic_version polkadot9430_clock eq_refl eq_refl polkadot9430_apart). Qed.
Print Assumptions c80_polkadot9430.

(** TestPolkadot15, spec version 1000001. *)
Lemma polkadot15_clock : clockb TestPolkadot15.md_types (ep_call polkadot15_params) 3 0 = true. Proof. vm_compute. reflexivity. Qed.
Theorem c80_polkadot15 : times_seen TestPolkadot15.md 3 0 /\ seen_times TestPolkadot15.md 3 0.
Proof. exact (times_real _ _ _ _ _ polkadot15_md PropReal.polkadot15_usable polkadot15_is_params polkadot15_call polkadot15_extrinsic_version polkadot15_clock eq_refl eq_refl polkadot15_apart). Qed.
Print Assumptions c80_polkadot15.

(** TestUnchecked15, spec version 1003003. *)
Lemma polkadot1003003_clock : clockb TestUnchecked15.md_types (ep_call polkadot1003003_params) 3 0 = true. Proof. vm_compute. reflexivity. Qed.
Theorem c80_polkadot1003003 : times_seen TestUnchecked15.md 3 0 /\ seen_times TestUnchecked15.md 3 0.
Proof. exact (times_real _ _ _ _ _ polkadot1003003_md PropReal.unchecked15_usable polkadot1003003_is_params polkadot1003003_call polkadot1003003_extrinsic_version polkadot1003003_clock eq_refl eq_refl polkadot1003003_apart). Qed.
Print Assumptions c80_polkadot1003003.

(** TestAstar, spec version 66. *)
Lemma astar_clock : clockb TestAstar.md_types (ep_call astar_params) 13 0 = true. Proof. vm_compute. reflexivity. Qed.
Theorem c80_astar : times_seen TestAstar.md 13 0 /\ seen_times TestAstar.md 13 0.
Proof. exact (times_real _ _ _ _ _ astar_md PropReal.astar_usable astar_is_params astar_call astar_extrinsic_version astar_clock eq_refl eq_refl astar_apart). Qed.
Print Assumptions c80_astar.

(** TestBifrost, spec version 982. *)
Lemma bifrost_clock : clockb TestBifrost.md_types (ep_call bifrost_params) 1 0 = true. Proof. vm_compute. reflexivity. Qed.
Theorem c80_bifrost : times_seen TestBifrost.md 1 0 /\ seen_times TestBifrost.md 1 0.
Proof. exact (times_real _ _ _ _ _ bifrost_md PropReal.bifrost_usable bifrost_is_params bifrost_call bifrost_extrinsic_version bifrost_clock eq_refl eq_refl bifrost_apart). Qed.
Print Assumptions c80_bifrost.

(** TestStatemint, spec version 1002000. *)
Lemma statemint_clock : clockb TestStatemint.md_types (ep_call statemint_params) 3 0 = true. Proof. vm_compute. reflexivity. Qed.
Theorem c80_statemint : times_seen TestStatemint.md 3 0 /\ seen_times TestStatemint.md 3 0.
Proof. exact (times_real _ _ _ _ _ statemint_md PropWhole.statemint_usable statemint_is_params statemint_call statemint_extrinsic_version statemint_clock eq_refl eq_refl PropSee.statemint_told_apart). Qed.
Print Assumptions c80_statemint.

(** TestAcala2012, spec version 2012. *)
Definition acala2012_params := Eval vm_compute in params_of (m_extrinsic_type_params TestAcala2012.md).
Lemma acala2012_is_params : m_extrinsic_type_params TestAcala2012.md = inl acala2012_params. Proof. vm_compute. reflexivity. Qed.
Lemma acala2012_extrinsic_version : m_extrinsic_version TestAcala2012.md = inl 4%N. Proof. vm_compute. reflexivity. Qed.
Lemma acala2012_call : m_call_ty TestAcala2012.md = inl (ep_call acala2012_params). Proof. vm_compute. reflexivity. Qed.
Lemma acala2012_md : m_types TestAcala2012.md = portable TestAcala2012.md_types.
Proof. reflexivity. Qed.
Lemma acala2012_clock : clockb TestAcala2012.md_types (ep_call acala2012_params) 1 0 = true. Proof. vm_compute. reflexivity. Qed.
Theorem c80_acala2012 : times_seen TestAcala2012.md 1 0 /\ seen_times TestAcala2012.md 1 0.
Proof. exact (times_real _ _ _ _ _ acala2012_md PropReal.acala2012_usable acala2012_is_params acala2012_call acala2012_extrinsic_version acala2012_clock eq_refl eq_refl PropAccount.acala2012_apart). Qed.
Print Assumptions c80_acala2012.

(** TestAcala2200, spec version 2200. *)
Definition acala2200_params := Eval vm_compute in params_of (m_extrinsic_type_params TestAcala2200.md).
Lemma acala2200_is_params : m_extrinsic_type_params TestAcala2200.md = inl acala2200_params. Proof. vm_compute. reflexivity. Qed.
Lemma acala2200_extrinsic_version : m_extrinsic_version TestAcala2200.md = inl 4%N. Proof. vm_compute. reflexivity. Qed.
Lemma acala2200_call : m_call_ty TestAcala2200.md = inl (ep_call acala2200_params). Proof. vm_compute. reflexivity. Qed.
Lemma acala2200_md : m_types TestAcala2200.md = portable TestAcala2200.md_types.
Proof. reflexivity. Qed.
Lemma acala2200_clock : clockb TestAcala2200.md_types (ep_call acala2200_params) 1 0 = true. Proof. vm_compute. reflexivity. Qed.
Theorem c80_acala2200 : times_seen TestAcala2200.md 1 0 /\ seen_times TestAcala2200.md 1 0.
Proof. exact (times_real _ _ _ _ _ acala2200_md PropReal.acala2200_usable acala2200_is_params acala2200_call acala2200_extrinsic_version acala2200_clock eq_refl eq_refl PropAccount.acala2200_apart). Qed.
Print Assumptions c80_acala2200.

(** 2024-08-01 00:00 UTC on Polkadot 1003003, evaluated; and three wrong extrinsics: another
    version, a signed one cut short, one byte less. *)
Example c80_example :
  hex_encode (inherent 4 (clock_bytes 3 0 1722470400000)) = "280403000b00803c0b9101" /\
  match result (decode_as_unchecked_extrinsic (slice_buffer (inherent 4 (clock_bytes 3 0 1722470400000))) TestUnchecked15.md) with
  | Ok (UxUnsigned d) => map (show Address.bits_text) (card_call Address.address (fun b => b) (ShortSpecs 0 10 "DOT") "polkadot" d 0)
  | _ => []
  end = ["Pallet: Timestamp"; "  Call: set"; "    Field Name: now"; "      u64: 1722470400000"] /\
  forallb (fun data => match result (decode_as_unchecked_extrinsic (slice_buffer data) TestUnchecked15.md) with Err _ => true | _ => false end)
    [inherent 5 (clock_bytes 3 0 1722470400000); inherent 132 (clock_bytes 3 0 1722470400000); inherent 4 (removelast (clock_bytes 3 0 1722470400000))] = true.
Proof. refine (conj _ (conj _ _)); vm_compute; reflexivity. Qed.
