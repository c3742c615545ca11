(** C44: the size of parsed data is bounded by the number of bytes consumed, unless the
    registry has a vector whose elements take no bytes. *)
From Coq Require Import Lia ZifyBool ZifyNat ZifyN.
From Verif Require Import Base Compact Types Decode Spec SpecWf SpecSize Api Sample ProofBase ProofCor ProofSize2 CheckWf PropDecode.
From Verif Require TestWestend TestStatemint.
Local Open Scope list_scope.

(** The number of items is at most [growth types] (which depends on the registry only) for
    each byte consumed, plus as much. *)
Theorem c44_bounded : forall types data id pos x q,
  acyclic types -> no_empty_elements types -> is_bytes data ->
  decode_at types data id pos = (Ok x, q) ->
  (size (x_data x) <= growth types * (1 + (q - pos)))%nat.
Proof. intros types data id pos x q Ha Hn. apply decoded_size; assumption. Qed.
Print Assumptions c44_bounded.

(** Real metadata meets the hypotheses. *)
Theorem westend_well_formed : well_formed TestWestend.md_types /\ no_empty_elements TestWestend.md_types.
Proof.
  split; [apply (wf_ranked_ok _ (ranks TestWestend.md_types 12))|apply elements_take_bytes_ok]; vm_compute; reflexivity.
Qed.
Print Assumptions westend_well_formed.

Theorem statemint_well_formed : well_formed TestStatemint.md_types /\ no_empty_elements TestStatemint.md_types.
Proof.
  split; [apply (wf_ranked_ok _ (ranks TestStatemint.md_types 12))|apply elements_take_bytes_ok]; vm_compute; reflexivity.
Qed.
Print Assumptions statemint_well_formed.

Example c44_example : well_formed sample_wf /\ no_empty_elements sample_wf /\
  exists x, decode_at sample_wf sample_bytes 10 0 = (Ok x, 34%nat) /\ size (x_data x) = 22%nat.
Proof.
  split; [exact sample_well_formed|]. split; [apply elements_take_bytes_ok; vm_compute; reflexivity|].
  eexists. vm_compute. repeat split.
Qed.

(** Without the second hypothesis there is no bound: with a vector of units, type 1, the
    at most five bytes of a compact number give that many elements. *)
Definition units : list ty := [Ty [] [] (TTuple []) []; Ty [] [] (TSequence 0) []].

Lemma units_enc k : enc_all (enc units false 0) (repeat (VTuple []) k) = Some [].
Proof. induction k as [|k IH]; [reflexivity|]. cbn [repeat enc_all]. fold (enc_all (enc units false 0)). rewrite IH. reflexivity. Qed.

Lemma units_view k : ProofSpec.elems_view units 0 (repeat (VTuple []) k) = Some (repeat (DTuple []) k).
Proof.
  induction k as [|k IH]; [reflexivity|]. cbn [repeat ProofSpec.elems_view].
  fold (ProofSpec.elems_view units 0). rewrite IH. reflexivity.
Qed.

Theorem c44_unbounded : forall n, (n < 2 ^ 32)%N ->
  decode_at units (compact_enc n) 1 0 =
    (Ok (Ext (DSequenceRaw [] (repeat (DTuple []) (N.to_nat n))) []), List.length (compact_enc n)) /\
  (List.length (compact_enc n) <= 5)%nat /\
  size (DSequenceRaw [] (repeat (DTuple []) (N.to_nat n))) = S (N.to_nat n).
Proof.
  intros n Hn. repeat split.
  - assert (Hwf : well_formed units) by (apply (wf_ranked_ok _ (ranks units 2)); vm_compute; reflexivity).
    assert (He : enc units false 1 (VSeq (repeat (VTuple []) (N.to_nat n))) = Some (compact_enc n)).
    { generalize (units_enc (N.to_nat n)). intros Hu.
      change (enc units false 1 (VSeq (repeat (VTuple []) (N.to_nat n)))) with
        (if negb false && fits U32 (N.of_nat (List.length (repeat (VTuple []) (N.to_nat n))))
         then option_map (app (compact_enc (N.of_nat (List.length (repeat (VTuple []) (N.to_nat n))))))
                (enc_all (enc units false 0) (repeat (VTuple []) (N.to_nat n)))
         else None).
      rewrite Hu, repeat_length, N2Nat.id.
      replace (fits U32 n) with true by (symmetry; apply N.ltb_lt; exact Hn). cbn [negb andb option_map].
      rewrite app_nil_r. reflexivity. }
    destruct (c03_round_trip units 1 _ _ [] [] Hwf He (Forall_nil _)) as (d & l & Hv & Hd).
    cbn [app List.length Nat.add] in Hd. rewrite app_nil_r in Hd. rewrite Hd.
    rewrite (ProofSpec.view_seq units false HNone 1 (Ty [] [] (TSequence 0) []) 0 _ eq_refl eq_refl) in Hv.
    unfold ProofSpec.seq_view in Hv. rewrite units_view in Hv.
    change (peel_from units [] 0) with (Some (@nil info, 0%N)) in Hv. cbv beta iota in Hv.
    assert (Hs : sequence_of [] (repeat (DTuple []) (N.to_nat n)) = DSequenceRaw [] (repeat (DTuple []) (N.to_nat n))).
    { unfold sequence_of. destruct (N.to_nat n); reflexivity. }
    rewrite Hs in Hv. injection Hv as <- <-. reflexivity.
  - unfold compact_enc. destruct (N.ltb_spec n 64); [cbn; lia|]. destruct (N.ltb_spec n (2 ^ 14)); [rewrite le_bytes_length; lia|].
    destruct (N.ltb_spec n (2 ^ 30)); [rewrite le_bytes_length; lia|].
    cbn [List.length]. rewrite le_bytes_length. unfold big_len.
    assert (Hs : (N.size n <= 32)%N) by (rewrite N.size_log2 by lia; apply N.le_succ_l, N.log2_lt_pow2; lia). lia.
  - cbn [size]. f_equal. induction (N.to_nat n) as [|k IH]; [reflexivity|]. cbn [repeat map list_sum fold_right].
    unfold list_sum in IH. rewrite IH. reflexivity.
Qed.
Print Assumptions c44_unbounded.
