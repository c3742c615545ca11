(** C77: the bytes of an included transfer, and its lines, determine sender, signature, recipient,
    amount and all values in the extrinsic. *)
From Coq Require Import Lia.
From Verif Require Import Base Compact Types Indicators Decode Sign Balance Cards Spec SpecSign SpecCards SpecSee SpecTransfer SpecIncluded Api ApiSign
  ProofBase ProofCompact PropTransfer PropIncluded PropTells.
From Verif Require ProofPrefixFree ProofUnique PropSee.
Local Open Scope string_scope.
Local Open Scope list_scope.

(** The values that the extensions [l] put into the extrinsic are the same. *)
Definition included_alike (l : list ext_meta) (s s' : signing) : Prop :=
  let has := fun identifier => In identifier (map em_identifier l) in
  (has "CheckMortality" -> sg_era s = sg_era s') /\
  (has "CheckNonce" -> sg_nonce s = sg_nonce s') /\
  (has "ChargeTransactionPayment" \/ has "ChargeAssetTxPayment" -> sg_tip s = sg_tip s') /\
  (has "CheckMetadataHash" -> (sg_metadata_hash s = None <-> sg_metadata_hash s' = None)).

Lemma thousand m : (m <= 1000)%nat -> (N.of_nat m < 2 ^ 32)%N.
Proof. intros H. assert (G : (N.of_nat m <= 1000)%N) by lia. eapply N.le_lt_trans; [exact G|reflexivity]. Qed.

Lemma extra_told exts s s' r r' : proper s -> proper s' -> extra_bytes s exts ++ r = extra_bytes s' exts ++ r' -> included_alike exts s s' /\ r = r'.
Proof.
  intros Hs Hs' H. unfold extra_bytes in H. apply (parts_told s s' extension_bytes (extension_told s s' Hs Hs')) in H. destruct H as [A E].
  split; [|exact E].
  destruct Hs as (V & Nn & Tt & _), Hs' as (V' & Nn' & Tt' & _).
  refine (conj _ (conj _ (conj _ _))).
  - intros K. apply ProofUnique.era_inj; [exact V|exact V'|exact (A _ K)].
  - intros K. specialize (A _ K). refine (proj1 (ProofPrefixFree.compact_free U32 _ _ [] [] Nn Nn' _)). rewrite !app_nil_r. exact A.
  - intros [K|K]; specialize (A _ K).
    + refine (proj1 (ProofPrefixFree.compact_free U128 _ _ [] [] Tt Tt' _)). rewrite !app_nil_r. exact A.
    + exact (proj1 (ProofPrefixFree.compact_free U128 _ _ [0%N] [0%N] Tt Tt' A)).
  - intros K. specialize (A _ K). unfold extension_bytes in A. cbn [String.eqb Ascii.eqb Bool.eqb] in A.
    destruct (sg_metadata_hash s), (sg_metadata_hash s'); try discriminate A; split; intros; congruence.
Qed.

Lemma transfer_told i j dest amount r i' j' dest' amount' r' :
  List.length dest = 32%nat -> List.length dest' = 32%nat -> (amount < 2 ^ 128)%N -> (amount' < 2 ^ 128)%N ->
  transfer_bytes i j dest amount ++ r = transfer_bytes i' j' dest' amount' ++ r' -> i = i' /\ j = j' /\ dest = dest' /\ amount = amount' /\ r = r'.
Proof.
  intros L L' A A' E. unfold transfer_bytes in E. rewrite <- !app_comm_cons, <- !app_assoc in E. injection E as -> -> E.
  apply ProofPrefixFree.app_same_length in E; [|congruence]. destruct E as [-> E].
  apply (ProofPrefixFree.compact_free U128) in E; [|apply N.ltb_lt; exact A|apply N.ltb_lt; exact A'].
  destruct E as [-> ->]. auto.
Qed.

(** ... even if bytes follow the call in both (which the parser allows, C32). *)
Theorem c77_bytes_tell : forall exts v s sender n signature i j dest amount following v' s' sender' n' signature' i' j' dest' amount' following',
  proper s -> proper s' -> List.length sender = 32%nat -> List.length sender' = 32%nat ->
  (n = n' -> List.length signature = List.length signature') ->
  List.length dest = 32%nat -> List.length dest' = 32%nat -> (amount < 2 ^ 128)%N -> (amount' < 2 ^ 128)%N ->
  forall data, (N.of_nat (List.length data) < 2 ^ 32)%N ->
  data = included_bytes v sender n signature (extra_bytes s exts) (transfer_bytes i j dest amount ++ following) ->
  data = included_bytes v' sender' n' signature' (extra_bytes s' exts) (transfer_bytes i' j' dest' amount' ++ following') ->
  v = v' /\ sender = sender' /\ n = n' /\ signature = signature' /\ included_alike exts s s' /\
  i = i' /\ j = j' /\ dest = dest' /\ amount = amount' /\ following = following'.
Proof.
  intros exts v s sender n signature i j dest amount fo v' s' sender' n' signature' i' j' dest' amount' fo' Hs Hs' S S' G L L' A A' data F E E'.
  unfold included_bytes in E, E'. cbv zeta in E, E'.
  assert (Fit : forall (head content : bytes), data = head ++ content -> fits U32 (N.of_nat (List.length content)) = true).
  { intros head content Ed. apply (small_fits _ (List.length data)); [rewrite Ed, app_length; lia|apply N.ltb_lt; exact F]. }
  pose proof (Fit _ _ E) as F1. pose proof (Fit _ _ E') as F2. rewrite E in E'. clear Fit E F data. rename E' into E.
  apply (ProofPrefixFree.compact_free U32) in E; [|exact F1|exact F2]. destruct E as [_ E]. clear F1 F2.
  pose proof (f_equal (@hd N 0%N) E) as Ev. cbn [hd app] in Ev. apply (f_equal (@tl N)) in E. cbn [tl] in E.
  apply N.add_cancel_l in Ev. rewrite <- !app_comm_cons in E. apply (f_equal (@tl N)) in E. cbn [tl] in E.
  apply ProofPrefixFree.app_same_length in E; [|congruence]. destruct E as [Es E].
  pose proof (f_equal (@hd N 0%N) E) as En. cbn [hd app] in En. apply (f_equal (@tl N)) in E. cbn [tl app] in E.
  apply ProofPrefixFree.app_same_length in E; [|exact (G En)]. destruct E as [Eg E].
  apply extra_told in E; [|assumption|assumption]. destruct E as [Ex E].
  apply transfer_told in E; try assumption. destruct E as (E1 & E2 & E3 & E4 & E5).
  refine (conj Ev (conj Es (conj En (conj Eg (conj Ex (conj E1 (conj E2 (conj E3 (conj E4 E5))))))))).
Qed.
Print Assumptions c77_bytes_tell.

Lemma signature_kind types id n form k form' k' : signature_type types id n form k -> signature_type types id n form' k' -> k = k'.
Proof.
  intros (t & l & v & f & H1 & H2 & H3 & H4 & H5 & H6) (t' & l' & v' & f' & H1' & H2' & H3' & H4' & H5' & H6').
  assert (t' = t) by congruence. subst t'. assert (l' = l) by congruence. subst l'. assert (v' = v) by congruence. subst v'.
  assert (f' = f) by congruence. subst f'.
  destruct form, form'.
  - destruct H6 as (_ & _ & _ & x & X1 & X2), H6' as (_ & _ & _ & y & Y1 & Y2). congruence.
  - destruct H6 as (Q & _). congruence.
  - destruct H6' as (Q & _). congruence.
  - congruence.
Qed.

(** Two extrinsics with transfers that are printed alike are the same extrinsic. *)
Theorem c77_lines_tell : forall ME (c : chain ME) p v exts nv i j n form k name s sender signature dest amount
    i' j' n' form' k' name' s' sender' signature' dest' amount',
  acyclic (ch_types c) -> told_apart (ch_types c) ->
  ch_params c = inl p -> ch_call c = inl (ep_call p) -> ch_version c = inl v -> (v < 128)%N -> ch_extensions c = inl exts -> ch_spec c = inl nv ->
  transfer_call (ch_types c) (ep_call p) i j name -> usual_extrinsic (ch_types c) p exts n form k -> (i < 256)%N -> (j < 256)%N -> (n < 256)%N ->
  transfer_call (ch_types c) (ep_call p) i' j' name' -> usual_extrinsic (ch_types c) p exts n' form' k' -> (i' < 256)%N -> (j' < 256)%N -> (n' < 256)%N ->
  printed_spec_version nv = dec_string (sg_version s) -> proper s ->
  printed_spec_version nv = dec_string (sg_version s') -> proper s' ->
  is_bytes sender -> List.length sender = 32%nat -> is_bytes signature -> List.length signature = raw_len k ->
  is_bytes dest -> List.length dest = 32%nat -> (amount < 2 ^ 128)%N ->
  is_bytes sender' -> List.length sender' = 32%nat -> is_bytes signature' -> List.length signature' = raw_len k' ->
  is_bytes dest' -> List.length dest' = 32%nat -> (amount' < 2 ^ 128)%N ->
  forall b58 specs, base58_faithful b58 -> (decimals specs < 256)%N ->
  sender_lines b58 specs sender = sender_lines b58 specs sender' ->
  signature_lines form k signature = signature_lines form' k' signature' ->
  extra_lines specs s exts = extra_lines specs s' exts ->
  transfer_lines b58 specs name dest amount = transfer_lines b58 specs name' dest' amount' ->
  sender = sender' /\ n = n' /\ signature = signature' /\ included_alike exts s s' /\ i = i' /\ j = j' /\ dest = dest' /\ amount = amount'.
Proof.
  intros ME c p v exts nv i j n form k name s sender signature dest amount i' j' n' form' k' name' s' sender' signature' dest' amount'
    Ha Hap Hp Hc Hver Hv He Hn T U I J N0 T' U' I' J' N0' V P V' P' B1 L1 B2 L2 B3 L3 A B1' L1' B2' L2' B3' L3' A' b58 specs F D E1 E2 E3 E4.
  destruct (included_accepted c p v i j n form k name exts nv Ha Hp Hc Hver Hv T He U Hn I J N0 s None sender signature dest amount V P)
    as (a & sg & e & call & xs & _ & (Hb & _) & _ & Hu & L); try assumption; [exact Logic.I|apply N.ltb_lt; exact A|].
  destruct (L b58 (fun x => x) specs "" PropSee.plain_bits) as (M1 & M2 & M3 & M4). clear L.
  rewrite E1 in M1. rewrite E2 in M2. rewrite E3 in M3. rewrite E4 in M4.
  assert (Q : (List.length (included_bytes v sender n signature (extra_bytes s exts) (transfer_bytes i j dest amount)) <= 1000)%nat /\
    is_bytes (included_bytes v sender n signature (extra_bytes s exts) (transfer_bytes i j dest amount))).
  { assert (C : (List.length ((128 + v)%N :: (0%N :: sender) ++ (n :: signature) ++ extra_bytes s exts ++ transfer_bytes i j dest amount) <= 900)%nat).
    { rewrite <- !app_comm_cons. cbn [List.length]. rewrite !app_length. cbn [List.length]. rewrite !app_length.
      pose proof (extra_short _ s exts P (proj1 (proj2 (proj2 (proj2 (proj2 U)))))) as X.
      unfold transfer_bytes. cbn [List.length]. rewrite app_length, L1, L3, L2.
      assert (A0 : fits U128 amount = true) by (apply N.ltb_lt; exact A).
      pose proof (compact_enc_length U128 amount A0) as Y. assert (Z : (raw_len k <= 100)%nat) by (destruct k; cbn; lia). lia. }
    unfold included_bytes. cbv zeta.
    assert (W : fits U32 (N.of_nat (List.length ((128 + v)%N :: (0%N :: sender) ++ (n :: signature) ++ extra_bytes s exts ++ transfer_bytes i j dest amount))) = true)
      by (apply (small_fits _ 900); [exact C|reflexivity]).
    split.
    - rewrite app_length. pose proof (compact_enc_length U32 _ W). lia.
    - apply is_bytes_app. split; [apply (compact_enc_fits_is_bytes U32); exact W|]. constructor; [|exact Hb]. clear -Hv. unfold is_byte. lia. }
  destruct Q as [Q1 Q2].
  destruct (c77_only_included ME c p v i' j' n' form' k' name' exts nv s' sender' signature' dest' amount' Ha Hp Hc Hver Hv T' He U' I' J' N0' Hn V' P'
    B1' L1' B2' L2' B3' L3' A' Hap b58 (fun x => x) specs "" PropSee.plain_bits _ a sg e call F PropSee.plain_bits_faithful D Q2 Hu M1 M2 M3 M4) as (fo & E).
  rewrite <- (app_nil_r (transfer_bytes i j dest amount)) in E, Q1.
  destruct (c77_bytes_tell exts v s sender n signature i j dest amount [] v s' sender' n' signature' i' j' dest' amount' fo P P' L1 L1') with
    (data := included_bytes v sender n signature (extra_bytes s exts) (transfer_bytes i j dest amount ++ []))
    as (_ & R1 & R2 & R3 & R4 & R5 & R6 & R7 & R8 & _); try assumption; try reflexivity.
  - intros <-. rewrite L2, L2'. f_equal. destruct U as (_ & _ & U & _), U' as (_ & _ & U' & _). exact (signature_kind _ _ _ _ _ _ _ U U').
  - apply thousand. exact Q1.
  - refine (conj R1 (conj R2 (conj R3 (conj R4 (conj R5 (conj R6 (conj R7 R8))))))).
Qed.
Print Assumptions c77_lines_tell.
