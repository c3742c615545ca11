(** C76, C78: what is signed, and what is shown, determine the transfer: recipient, amount and all the
    values that the extensions of the chain sign; and the lines of an account determine its numbers. *)
From Coq Require Import Lia.
From Verif Require Import Base Compact Types Indicators Decode Sign Balance Cards Spec SpecSign SpecCards SpecSee SpecTransfer SpecAccount Api ApiSign
  ProofBase ProofCompact PropTransfer.
From Verif Require ProofPrefixFree ProofUnique PropEvents PropSee ProofSee.
Local Open Scope string_scope.
Local Open Scope list_scope.

(** The values that the extensions [l] sign are the same. *)
Definition signed_alike (l : list ext_meta) (s s' : signing) : Prop :=
  let has := fun identifier => In identifier (map em_identifier l) in
  (has "CheckSpecVersion" -> sg_version s = sg_version s') /\
  (has "CheckTxVersion" -> sg_tx_version s = sg_tx_version s') /\
  (has "CheckGenesis" -> sg_genesis s = sg_genesis s') /\
  (has "CheckMortality" -> sg_era s = sg_era s' /\ sg_block s = sg_block s') /\
  (has "CheckNonce" -> sg_nonce s = sg_nonce s') /\
  (has "ChargeTransactionPayment" \/ has "ChargeAssetTxPayment" -> sg_tip s = sg_tip s') /\
  (has "CheckMetadataHash" -> sg_metadata_hash s = sg_metadata_hash s').

Lemma u32_less n : fits U32 n = true -> (n < 256 ^ N.of_nat 4)%N.
Proof. intros H. apply N.ltb_lt in H. exact H. Qed.

Lemma transfer_short i j dest amount : List.length dest = 32%nat -> (amount < 2 ^ 128)%N ->
  fits U32 (N.of_nat (List.length (transfer_bytes i j dest amount))) = true.
Proof.
  intros L A. apply small_fits with (m := 100%nat); [|reflexivity]. unfold transfer_bytes. cbn [List.length]. rewrite app_length, L.
  assert (F : fits U128 amount = true) by (apply N.ltb_lt; exact A).
  pose proof (compact_enc_length U128 amount F). lia.
Qed.

Section Told.
Variables s s' : signing.
Hypothesis Hs : proper s.
Hypothesis Hs' : proper s'.

Lemma extension_told k r r' : extension_bytes s k ++ r = extension_bytes s' k ++ r' -> extension_bytes s k = extension_bytes s' k /\ r = r'.
Proof.
  destruct Hs as (E & Nn & Tt & _ & _ & _ & _ & _ & _ & _ & M), Hs' as (E' & Nn' & Tt' & _ & _ & _ & _ & _ & _ & _ & M').
  unfold extension_bytes. destruct (String.eqb k "CheckMortality"); [apply ProofPrefixFree.era_free; assumption|].
  destruct (String.eqb k "CheckNonce"); [intros H; apply (ProofPrefixFree.compact_free U32) in H; [|assumption|assumption]; destruct H as [-> ->]; auto|].
  destruct (String.eqb k "ChargeTransactionPayment");
    [intros H; apply (ProofPrefixFree.compact_free U128) in H; [|assumption|assumption]; destruct H as [-> ->]; auto|].
  destruct (String.eqb k "ChargeAssetTxPayment").
  - rewrite <- !app_assoc. intros H. apply (ProofPrefixFree.compact_free U128) in H; [|assumption|assumption]. destruct H as [-> H].
    apply (f_equal (@tl N)) in H. cbn [tl app] in H. auto.
  - destruct (String.eqb k "CheckMetadataHash"); [|auto].
    intros H. apply ProofPrefixFree.app_same_length in H; [exact H|]. destruct (sg_metadata_hash s), (sg_metadata_hash s'); reflexivity.
Qed.

Lemma additional_told k r r' : additional_bytes s k ++ r = additional_bytes s' k ++ r' -> additional_bytes s k = additional_bytes s' k /\ r = r'.
Proof.
  destruct Hs as (_ & _ & _ & V & X & _ & G & _ & B & _ & M), Hs' as (_ & _ & _ & V' & X' & _ & G' & _ & B' & _ & M').
  unfold additional_bytes.
  destruct (String.eqb k "CheckSpecVersion"); [intros H; apply ProofPrefixFree.app_same_length in H; [exact H|rewrite !le_bytes_length; reflexivity]|].
  destruct (String.eqb k "CheckTxVersion"); [intros H; apply ProofPrefixFree.app_same_length in H; [exact H|rewrite !le_bytes_length; reflexivity]|].
  destruct (String.eqb k "CheckGenesis"); [intros H; apply ProofPrefixFree.app_same_length in H; [exact H|congruence]|].
  destruct (String.eqb k "CheckMortality"); [intros H; apply ProofPrefixFree.app_same_length in H; [exact H|congruence]|].
  destruct (String.eqb k "CheckMetadataHash"); [|auto].
  intros H. destruct (sg_metadata_hash s) as [h|], (sg_metadata_hash s') as [h'|].
  - apply ProofPrefixFree.app_same_length in H; [exact H|]. cbn [List.length]. destruct M, M'. congruence.
  - discriminate H.
  - discriminate H.
  - apply ProofPrefixFree.app_same_length in H; [exact H|reflexivity].
Qed.

Lemma parts_told (f : signing -> string -> bytes) :
  (forall k r r', f s k ++ r = f s' k ++ r' -> f s k = f s' k /\ r = r') ->
  forall (l : list ext_meta) r r',
  flat_map (fun m => f s (em_identifier m)) l ++ r = flat_map (fun m => f s' (em_identifier m)) l ++ r' ->
  (forall k, In k (map em_identifier l) -> f s k = f s' k) /\ r = r'.
Proof.
  intros Hf. induction l as [|m l IH]; intros r r' H; [split; [intros k []|exact H]|].
  cbn [flat_map] in H. rewrite <- !app_assoc in H. apply Hf in H. destruct H as [E H]. apply IH in H. destruct H as [A ->].
  split; [|reflexivity]. intros k [<- | Hk]; [exact E|apply A; exact Hk].
Qed.

Lemma all_told l : all_extension_bytes s l = all_extension_bytes s' l -> signed_alike l s s'.
Proof.
  unfold all_extension_bytes. intros H. apply (parts_told extension_bytes extension_told) in H. destruct H as [A H].
  rewrite <- (app_nil_r (flat_map _ l)) in H. rewrite <- (app_nil_r (flat_map (fun m => additional_bytes s' _) l)) in H.
  apply (parts_told additional_bytes additional_told) in H. destruct H as [B _].
  destruct Hs as (E & Nn & Tt & V & X & _ & G & _ & Bk & _ & M), Hs' as (E' & Nn' & Tt' & V' & X' & _ & G' & _ & Bk' & _ & M').
  refine (conj _ (conj _ (conj _ (conj _ (conj _ (conj _ _)))))).
  - intros K. specialize (B _ K). refine (proj1 (PropEvents.le_told 4 _ _ [] [] _ _ _)); [apply u32_less; exact V|apply u32_less; exact V'|].
    rewrite !app_nil_r. exact B.
  - intros K. specialize (B _ K). refine (proj1 (PropEvents.le_told 4 _ _ [] [] _ _ _)); [apply u32_less; exact X|apply u32_less; exact X'|].
    rewrite !app_nil_r. exact B.
  - intros K. exact (B _ K).
  - intros K. split; [|exact (B _ K)]. apply ProofUnique.era_inj; [exact E|exact E'|exact (A _ K)].
  - intros K. specialize (A _ K). refine (proj1 (ProofPrefixFree.compact_free U32 _ _ [] [] Nn Nn' _)). rewrite !app_nil_r. exact A.
  - intros [K|K]; specialize (A _ K).
    + refine (proj1 (ProofPrefixFree.compact_free U128 _ _ [] [] Tt Tt' _)). rewrite !app_nil_r. exact A.
    + exact (proj1 (ProofPrefixFree.compact_free U128 _ _ [0%N] [0%N] Tt Tt' A)).
  - intros K. specialize (B _ K). unfold additional_bytes in B. cbn [String.eqb Ascii.eqb Bool.eqb] in B.
    destruct (sg_metadata_hash s) as [h|], (sg_metadata_hash s') as [h'|]; try discriminate B; [|reflexivity].
    apply (f_equal (@tl N)) in B. cbn [tl] in B. congruence.
Qed.
End Told.

(** What is signed determines the transfer and all the signed values. *)
Theorem c76_signed_tells : forall exts s s' i i' j j' dest dest' amount amount',
  proper s -> proper s' -> List.length dest = 32%nat -> List.length dest' = 32%nat -> (amount < 2 ^ 128)%N -> (amount' < 2 ^ 128)%N ->
  payload (transfer_bytes i j dest amount) (all_extension_bytes s exts) =
    payload (transfer_bytes i' j' dest' amount') (all_extension_bytes s' exts) ->
  i = i' /\ j = j' /\ dest = dest' /\ amount = amount' /\ signed_alike exts s s'.
Proof.
  intros exts s s' i i' j j' dest dest' amount amount' Hs Hs' L L' A A' H. unfold payload in H.
  assert (F : forall i j dest amount, List.length dest = 32%nat -> (amount < 2 ^ 128)%N ->
    fits U32 (N.of_nat (List.length (transfer_bytes i j dest amount))) = true).
  { clear. intros i j dest amount L A. exact (transfer_short i j dest amount L A). }
  apply (ProofPrefixFree.compact_free U32) in H; [|apply F; assumption|apply F; assumption]. destruct H as [H E].
  apply Nnat.Nat2N.inj in H. apply ProofPrefixFree.app_same_length in E; [|exact H]. destruct E as [E X]. clear H.
  unfold transfer_bytes in E. injection E as -> -> E.
  apply ProofPrefixFree.app_same_length in E; [|congruence]. destruct E as [-> E].
  refine (conj eq_refl (conj eq_refl (conj eq_refl (conj _ _)))).
  - refine (proj1 (ProofPrefixFree.compact_free U128 _ _ [] [] _ _ _)); [apply N.ltb_lt; exact A|apply N.ltb_lt; exact A'|].
    rewrite !app_nil_r. exact E.
  - apply all_told; assumption.
Qed.

Print Assumptions c76_signed_tells.

(** So do the lines on the screen: two transfers that are printed alike are the same transfer with
    the same signed values. *)
Theorem c76_lines_tell : forall ME (c : chain ME) call_ty exts nv i j name s dest amount i' j' name' s' dest' amount',
  acyclic (ch_types c) -> told_apart (ch_types c) ->
  ch_call c = inl call_ty -> ch_extensions c = inl exts -> usual_extensions (ch_types c) exts -> ch_spec c = inl nv ->
  transfer_call (ch_types c) call_ty i j name -> (i < 256)%N -> (j < 256)%N ->
  transfer_call (ch_types c) call_ty i' j' name' -> (i' < 256)%N -> (j' < 256)%N ->
  printed_spec_version nv = dec_string (sg_version s) -> proper s ->
  printed_spec_version nv = dec_string (sg_version s') -> proper s' ->
  is_bytes dest -> List.length dest = 32%nat -> (amount < 2 ^ 128)%N ->
  is_bytes dest' -> List.length dest' = 32%nat -> (amount' < 2 ^ 128)%N ->
  forall b58 specs chain_name,
  base58_faithful b58 -> (decimals specs < 256)%N ->
  transfer_lines b58 specs name dest amount = transfer_lines b58 specs name' dest' amount' ->
  all_extension_lines specs chain_name s exts = all_extension_lines specs chain_name s' exts ->
  i = i' /\ j = j' /\ dest = dest' /\ amount = amount' /\ signed_alike exts s s'.
Proof.
  intros ME c call_ty exts nv i j name s dest amount i' j' name' s' dest' amount' Ha Hap Hc He Hu Hn Ht Hi Hj Ht' Hi' Hj' Hv Hp Hv' Hp'
    Hb L A Hb' L' A' b58 specs cn F1 F2 E1 E2.
  destruct (c76_transfer ME c call_ty i j name exts nv s None dest amount Ha Hc Ht Hi Hj He Hu Hn Hv Hp (or_introl eq_refl) Hb L A)
    as (call & xs & T & _ & S).
  destruct (S b58 (fun x => x) specs cn PropSee.plain_bits) as [S1 S2].
  rewrite E1 in S1. rewrite E2 in S2.
  assert (D : is_bytes (payload (transfer_bytes i j dest amount) (all_extension_bytes s exts))).
  { destruct (transfer_accepted c call_ty i j name exts nv Ha Hc Ht He Hu Hn Hi Hj s None dest amount Hv Hp I Hb L)
      as (_ & _ & _ & _ & D & _); [apply N.ltb_lt; exact A|exact D]. }
  apply (c76_signed_tells exts s s' i i' j j' dest dest' amount amount' Hp Hp' L L' A A').
  exact (c76_only_transfer ME c call_ty i' j' name' exts nv s' None dest' amount' Ha Hc Ht' Hi' Hj' He Hu Hn Hv' Hp' (or_introl eq_refl)
    Hb' L' A' Hap b58 (fun x => x) specs cn PropSee.plain_bits _ call xs F1 PropSee.plain_bits_faithful F2 D T S1 S2).
Qed.
Print Assumptions c76_lines_tell.

(** ** Accounts *)

Lemma money_told specs a b : (decimals specs < 256)%N -> (a < 2 ^ 128)%N -> (b < 2 ^ 128)%N -> money specs a = money specs b -> a = b.
Proof. intros D A B H. eapply ProofSee.currency_inj; [exact D|exact A|exact B|exact H]. Qed.

(** C78: accounts that are printed alike are the same in all their numbers. *)
Theorem c78_lines_tell : forall specs flags a b, (decimals specs < 256)%N -> account_in_range a -> account_in_range b ->
  account_lines specs flags a = account_lines specs flags b -> a = b.
Proof.
  intros specs flags a b D (A1 & A2 & A3 & A4 & A5 & A6 & A7 & A8) (B1 & B2 & B3 & B4 & B5 & B6 & B7 & B8) H.
  unfold account_lines in H. injection H as H1 H2 H3 H4 H5 H6 H7 H8.
  apply ProofSee.dec_inj in H1, H2, H3, H4. apply money_told in H5, H6, H7; try assumption.
  assert (H9 : ac_fourth a = ac_fourth b).
  { destruct flags; [injection H8 as H8; apply ProofSee.dec_inj; exact H8|injection H8 as H8; apply (money_told specs); assumption]. }
  destruct a, b. cbn in *. congruence.
Qed.
Print Assumptions c78_lines_tell.
