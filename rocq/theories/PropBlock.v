(** C84: extrinsics of a block, signed or not, with any call of the kind described at C83 are shown as
    they were signed; and what is shown like this is this extrinsic. *)
From Coq Require Import Lia.
From Verif Require Import Base Compact Types Indicators Decode Sign Unchecked Balance Cards Spec SpecSign SpecCards SpecSee SpecTransfer SpecIncluded SpecClock SpecAccount SpecOrder
  SpecUnchecked Api ApiSign ProofBase ProofCompact ProofLeaf ProofWf ProofCor ProofSign2 ProofTransfer ProofIncluded ProofUnchecked PropTransfer PropInclude PropIncluded.
From Verif Require PropSign PropSee PropUnchecked PropBatch PropOrder PropClock PropTells PropTells2 ProofPrefixFree.
Local Open Scope string_scope.
Local Open Scope list_scope.

Definition an_order (a : arg) : Prop := exists i j pallet name l, a = Order i j pallet name l.

(** ** The call alone *)

Lemma order_made types call_ty a : an_order a -> allowed types HNone call_ty a ->
  exists v p info, enc types false call_ty v = Some (arg_bytes a) /\ view types false HNone call_ty v = Some (DCall p, info) /\
    nothing_hidden (DCall p) /\
    forall b58 icon specs cn bits, map (show bits) (card_call b58 icon specs cn p 0) = arg_lines b58 specs true a.
Proof.
  intros (i & j & pallet & name & l & ->) Hal.
  destruct (PropOrder.order_shown types i j pallet name l call_ty HNone) as (v & p & En & Vi & N1 & L); [|exact Hal|].
  { clear. induction l as [|x l IH]; constructor; [apply PropOrder.every_arg_shown|exact IH]. }
  destruct (Vi false) as (info & V0). exists v, p, info. split; [exact En|]. split; [exact V0|]. split; [exact N1|].
  intros b58 icon specs cn bits. pose proof (L b58 icon specs cn bits [] 0%nat true) as G. cbn [card Nat.mul blanks] in G. rewrite map_id in G. exact G.
Qed.

Lemma order_is_call ME (c : chain ME) call_ty a : acyclic (ch_types c) -> ch_call c = inl call_ty -> an_order a -> allowed (ch_types c) HNone call_ty a ->
  exists d, PropInclude.is_call c (arg_bytes a) d /\ is_bytes (arg_bytes a) /\ nothing_hidden (DCall d) /\
    forall b58 icon specs chain_name bits, map (show bits) (card_call b58 icon specs chain_name d 0) = arg_lines b58 specs true a.
Proof.
  intros Hac Hcall Ho Hal. destruct (order_made _ _ a Ho Hal) as (v & p & info & He & Hv & Hh & HL).
  exists p. split; [|split; [exact (enc_bytes _ _ _ _ _ He)|split; [exact Hh|exact HL] ] ].
  exists call_ty, (Ext (DCall p) info). split; [exact Hcall|]. split; [|reflexivity].
  pose proof (hinted_trip _ Hac HNone call_ty v (arg_bytes a) (Ext (DCall p) info) [] []) as T. rewrite !app_nil_r in T.
  specialize (T He Hv). apply whole_at. rewrite decode_at_hinted. apply T. constructor.
Qed.

(** ** Signed *)

Section Included.
Context {ME : Type}.
Variable c : chain ME.
Variables (p : extrinsic_params) (v n : N) (form : option string) (k : fixed_kind) (exts : list ext_meta) (nv : spec_name_version).
Hypothesis acyc : acyclic (ch_types c).
Hypothesis is_params : ch_params c = inl p.
Hypothesis is_call : ch_call c = inl (ep_call p).
Hypothesis is_version : ch_version c = inl v.
Hypothesis low : (v < 128)%N.
Hypothesis is_exts : ch_extensions c = inl exts.
Hypothesis usual : usual_extrinsic (ch_types c) p exts n form k.
Hypothesis is_spec : ch_spec c = inl nv.
Hypothesis byte_n : (n < 256)%N.

Lemma order_included s g sender signature a : printed_spec_version nv = dec_string (sg_version s) -> proper s ->
  genesis_matches g (sg_genesis s) -> is_bytes sender -> List.length sender = 32%nat ->
  is_bytes signature -> List.length signature = raw_len k ->
  an_order a -> allowed (ch_types c) HNone (ep_call p) a ->
  fits U32 (N.of_nat (S (List.length ((0%N :: sender) ++ (n :: signature) ++ extra_bytes s exts ++ arg_bytes a)))) = true ->
  let data := included_bytes v sender n signature (extra_bytes s exts) (arg_bytes a) in
  exists ad sg e call xs,
    extrinsic_unhidden (UxSigned ad sg e call) /\
    (is_bytes ((0%N :: sender) ++ (n :: signature) ++ extra_bytes s exts ++ arg_bytes a) /\
     decode_all (ch_types c) (0%N :: sender) (ep_address p) = Ok ad /\ decode_all (ch_types c) (n :: signature) (ep_signature p) = Ok sg /\
     decode_all (ch_types c) (extra_bytes s exts) (ep_extra p) = Ok e /\ PropInclude.is_call c (arg_bytes a) call) /\
    transaction c g (payload (arg_bytes a) (all_extension_bytes s exts)) = Ok (TransactionParsed (inl call) xs) /\
    unchecked_extrinsic c data = Ok (UxSigned ad sg e call) /\
    forall b58 icon specs chain_name bits,
      lines_of b58 icon specs chain_name bits ad = sender_lines b58 specs sender /\
      lines_of b58 icon specs chain_name bits sg = signature_lines form k signature /\
      lines_of b58 icon specs chain_name bits e = extra_lines specs s exts /\
      lines_of_call b58 icon specs chain_name bits call = arg_lines b58 specs true a.
Proof.
  intros Hp Hok Hg Hsb Hs32 Hgb Hgl Ho Hal Hfit data.
  destruct usual as (Uk & Uaddr & Usig & Utuple & Uexts & Unamed).
  destruct (order_made _ _ a Ho Hal) as (val & call & info & He0 & Hv0 & Hh & Hlines).
  assert (Hlen : fits U32 (N.of_nat (List.length (arg_bytes a))) = true).
  { apply (fits_less _ _ _) with (2 := Hfit). rewrite !app_length. lia. }
  destruct (PropBatch.call_accepted c (ep_call p) exts nv acyc is_call is_exts Uexts is_spec s g (arg_bytes a) (Ext (DCall call) info) call Hp Hok Hg)
    as (xs & _ & Hpb & Ht & _ & _); [exists val; split; [exact He0|exact Hv0]|reflexivity|exact Hlen|].
  destruct (made_address _ HNone (ep_address p) sender Uaddr Hsb Hs32) as (xa & docs & f & Ma & Xa & Nf & Xf).
  destruct (made_signature _ (ep_signature p) n form k signature Usig byte_n Hgb Hgl) as (xs1 & Ms & Xs).
  destruct (made_extra (ch_types c) s (ep_extra p) exts Utuple) as (xe & Me & He & Le).
  { intros ->. destruct Uexts as (_ & _ & [] & _). }
  { pose proof (proj1 Uexts) as Hall. rewrite Forall_forall in *. intros m Hm. apply usual_put_in; auto. }
  apply (whole c acyc HNone _ _ _ eq_refl) in Ma, Ms, Me. destruct Ma as (Ma & Ba), Ms as (Ms & Bs), Me as (Me & Be).
  assert (Hcb : is_bytes (arg_bytes a) /\ is_bytes (all_extension_bytes s exts)).
  { unfold payload in Hpb. apply is_bytes_app in Hpb. destruct Hpb as (_ & Hpb). apply is_bytes_app in Hpb. exact Hpb. }
  assert (Eq : data = signed_extrinsic v (0%N :: sender) (n :: signature) (extra_bytes s exts) (arg_bytes a)).
  { unfold data, included_bytes, signed_extrinsic, PropUnchecked.frame. rewrite (N.add_comm v 128). reflexivity. }
  assert (Hall : is_bytes ((0%N :: sender) ++ (n :: signature) ++ extra_bytes s exts ++ arg_bytes a)).
  { unfold is_bytes in *. rewrite !Forall_app. repeat split; tauto. }
  assert (Hu : unchecked_extrinsic c data = Ok (UxSigned xa xs1 xe call)).
  { rewrite Eq. apply (c69_signed_is_included ME c p v g (all_extension_bytes s exts) (TransactionParsed (inl call) xs)); try assumption; try tauto; try reflexivity.
    unfold PropUnchecked.frame. rewrite <- app_assoc. exact Ht. }
  exists xa, xs1, xe, call, xs. split; [|split; [|split; [exact Ht|split; [exact Hu|] ] ] ].
  - cbn [extrinsic_unhidden]. rewrite Xa. split; [|split; [|split; [exact He|exact Hh] ] ].
    + unfold nothing_hidden. cbn [everywhere vd_fields]. rewrite Xf. repeat split.
    + exact (proj1 (signature_shown _ _ _ _ Uk Xs)).
  - split; [exact Hall|]. split; [exact Ma|]. split; [exact Ms|]. split; [exact Me|].
    refine (proj1 (c69_signing ME c g _ (all_extension_bytes s exts) (TransactionParsed (inl call) xs) call _ _ _) eq_refl).
    + exact Hlen.
    + apply is_bytes_app. exact Hcb.
    + unfold PropUnchecked.frame. rewrite <- app_assoc. exact Ht.
  - intros b58 icon specs cn bits. unfold lines_of, lines_of_call. split; [|split; [|split; [apply Le|apply Hlines] ] ].
    + unfold card_ext, card_ext_with. rewrite Xa. cbn [card vd_fields vd_name vd_docs card_variant_fields]. rewrite Nf. unfold card_unnamed_single_field. rewrite Xf. reflexivity.
    + unfold card_ext, card_ext_with. apply (proj2 (signature_shown _ _ _ _ Uk Xs)).
Qed.
End Included.

Lemma content_fits (head : bytes) (b : N) (rest : bytes) : (N.of_nat (List.length (head ++ b :: rest)) < 2 ^ 32)%N -> fits U32 (N.of_nat (S (List.length rest))) = true.
Proof. intros H. apply N.ltb_lt. eapply N.le_lt_trans; [|exact H]. rewrite app_length. cbn [List.length]. lia. Qed.

(** ** The theorems *)

(** Whoever signs a call sees it; and once it is in a block, everybody sees the same call, the
    sender, the signature and the extensions. *)
Theorem c84_included : forall ME (c : chain ME) p v n form k exts nv s g sender signature a,
  acyclic (ch_types c) -> ch_params c = inl p -> ch_call c = inl (ep_call p) -> ch_version c = inl v -> (v < 128)%N ->
  ch_extensions c = inl exts -> usual_extrinsic (ch_types c) p exts n form k -> (n < 256)%N ->
  ch_spec c = inl nv -> printed_spec_version nv = dec_string (sg_version s) ->
  proper s -> g = None \/ g = Some (sg_genesis s) ->
  is_bytes sender -> List.length sender = 32%nat -> is_bytes signature -> List.length signature = raw_len k ->
  (exists i j pallet name l, a = Order i j pallet name l) -> allowed (ch_types c) HNone (ep_call p) a ->
  (N.of_nat (List.length (included_bytes v sender n signature (extra_bytes s exts) (arg_bytes a))) < 2 ^ 32)%N ->
  exists ad sg e call xs,
    transaction c g (payload (arg_bytes a) (all_extension_bytes s exts)) = Ok (TransactionParsed (inl call) xs) /\
    unchecked_extrinsic c (included_bytes v sender n signature (extra_bytes s exts) (arg_bytes a)) = Ok (UxSigned ad sg e call) /\
    forall b58 icon specs chain_name bits,
      map (show bits) (card_ext b58 icon specs chain_name ad 0 true) = sender_lines b58 specs sender /\
      map (show bits) (card_ext b58 icon specs chain_name sg 0 true) = signature_lines form k signature /\
      map (show bits) (card_ext b58 icon specs chain_name e 0 true) = extra_lines specs s exts /\
      map (show bits) (card_call b58 icon specs chain_name call 0) = arg_lines b58 specs true a.
Proof.
  intros ME c p v n form k exts nv s g sender signature a H1 H2 H3 H4 H5 H6 H7 H8 H9 H10 H11 Hg H12 H13 H14 H15 H16 H17 H18.
  destruct (order_included c p v n form k exts nv H1 H2 H3 H4 H5 H6 H7 H9 H8 s g sender signature a H10 H11)
    as (ad & sg & e & call & xs & _ & _ & T & U & L); try assumption;
    [destruct Hg as [-> | ->]; [exact I|reflexivity]|exact (content_fits _ _ _ H18)|].
  exists ad, sg, e, call, xs. split; [exact T|]. split; [exact U|]. exact L.
Qed.
Print Assumptions c84_included.

(** Conversely, an extrinsic shown in these lines is this one, byte by byte, except that bytes may
    follow the call, within the announced length (C32). *)
Theorem c84_only_included : forall ME (c : chain ME) p v n form k exts nv s sender signature a,
  acyclic (ch_types c) -> told_apart (ch_types c) ->
  ch_params c = inl p -> ch_call c = inl (ep_call p) -> ch_version c = inl v -> (v < 128)%N ->
  ch_extensions c = inl exts -> usual_extrinsic (ch_types c) p exts n form k -> (n < 256)%N ->
  ch_spec c = inl nv -> printed_spec_version nv = dec_string (sg_version s) -> proper s ->
  is_bytes sender -> List.length sender = 32%nat -> is_bytes signature -> List.length signature = raw_len k ->
  (exists i j pallet name l, a = Order i j pallet name l) -> allowed (ch_types c) HNone (ep_call p) a ->
  (N.of_nat (List.length (included_bytes v sender n signature (extra_bytes s exts) (arg_bytes a))) < 2 ^ 32)%N ->
  forall b58 icon specs chain_name bits data ad sg e call,
  base58_faithful b58 -> bits_faithful bits -> (decimals specs < 256)%N -> is_bytes data ->
  unchecked_extrinsic c data = Ok (UxSigned ad sg e call) ->
  map (show bits) (card_ext b58 icon specs chain_name ad 0 true) = sender_lines b58 specs sender ->
  map (show bits) (card_ext b58 icon specs chain_name sg 0 true) = signature_lines form k signature ->
  map (show bits) (card_ext b58 icon specs chain_name e 0 true) = extra_lines specs s exts ->
  map (show bits) (card_call b58 icon specs chain_name call 0) = arg_lines b58 specs true a ->
  exists following, data = included_bytes v sender n signature (extra_bytes s exts) (arg_bytes a ++ following).
Proof.
  intros ME c p v n form k exts nv s sender signature a H1 Hap H2 H3 H4 H5 H6 H7 H8 H9 H10 H11 H12 H13 H14 H15 H16 H17 H18
    b58 icon specs cn bits data ad sg e call F1 F2 Hd Hdata U L1 L2 L3 L4.
  destruct (order_included c p v n form k exts nv H1 H2 H3 H4 H5 H6 H7 H9 H8 s None sender signature a H10 H11)
    as (a' & sg' & e' & call' & xs & Hh & Hb & _ & U' & L); try assumption; [exact I|exact (content_fits _ _ _ H18)|].
  destruct (L b58 icon specs cn bits) as (M1 & M2 & M3 & M4).
  destruct Hb as (Hb & D1 & D2 & D3 & D4).
  destruct (c77_parts b58 icon specs cn bits ME c p v _ _ _ _ _ _ _ _ data ad sg e call F1 F2 Hd Hap Hdata Hb H2 H3 H4 D1 D2 D3 D4 Hh U) as (following & E).
  { cbn [extrinsic_lines]. rewrite M1, M2, M3, M4. unfold lines_of, lines_of_call. rewrite L1, L2, L3, L4. reflexivity. }
  exists following. rewrite E. unfold signed_extrinsic, PropUnchecked.frame, included_bytes. rewrite (N.add_comm v 128). reflexivity.
Qed.
Print Assumptions c84_only_included.

(** The bytes of an extrinsic are those of one sender, signature, call and set of values only; even if
    bytes follow the call in both. *)
Theorem c84_bytes_tell : forall types call_ty exts v s sender n signature a following v' s' sender' n' signature' a' following',
  proper s -> proper s' -> List.length sender = 32%nat -> List.length sender' = 32%nat ->
  (n = n' -> List.length signature = List.length signature') ->
  allowed types HNone call_ty a -> allowed types HNone call_ty a' ->
  forall data, (N.of_nat (List.length data) < 2 ^ 32)%N ->
  data = included_bytes v sender n signature (extra_bytes s exts) (arg_bytes a ++ following) ->
  data = included_bytes v' sender' n' signature' (extra_bytes s' exts) (arg_bytes a' ++ following') ->
  v = v' /\ sender = sender' /\ n = n' /\ signature = signature' /\ PropTells2.included_alike exts s s' /\ a = a' /\ following = following'.
Proof.
  intros types call_ty exts v s sender n signature a fo v' s' sender' n' signature' a' fo' Hs Hs' S S' G A A' data F E E'.
  unfold included_bytes in E, E'. cbv zeta in E, E'.
  assert (Fit : forall (head content : bytes), data = head ++ content -> fits U32 (N.of_nat (List.length content)) = true).
  { intros head content Ed. apply (small_fits _ (List.length data)); [rewrite Ed, app_length; lia|apply N.ltb_lt; exact F]. }
  pose proof (Fit _ _ E) as F1. pose proof (Fit _ _ E') as F2. rewrite E in E'. clear Fit E F data. rename E' into E.
  apply (ProofPrefixFree.compact_free U32) in E; [|exact F1|exact F2]. destruct E as [_ E]. clear F1 F2.
  pose proof (f_equal (@hd N 0%N) E) as Ev. cbn [hd app] in Ev. apply (f_equal (@tl N)) in E. cbn [tl] in E.
  apply N.add_cancel_l in Ev. rewrite <- !app_comm_cons in E. apply (f_equal (@tl N)) in E. cbn [tl] in E.
  apply ProofPrefixFree.app_same_length in E; [|congruence]. destruct E as [Es E].
  pose proof (f_equal (@hd N 0%N) E) as En. cbn [hd app] in En. apply (f_equal (@tl N)) in E. cbn [tl app] in E.
  apply ProofPrefixFree.app_same_length in E; [|exact (G En)]. destruct E as [Eg E].
  apply PropTells2.extra_told in E; [|assumption|assumption]. destruct E as [Ex E].
  destruct (PropOrder.arg_told types a a' HNone call_ty _ _ A A' E) as [E1 E2].
  exact (conj Ev (conj Es (conj En (conj Eg (conj Ex (conj E1 E2)))))).
Qed.
Print Assumptions c84_bytes_tell.

(** Two extrinsics that are printed alike are the same extrinsic. *)
Theorem c84_lines_tell : forall ME (c : chain ME) p v exts nv n form k s sender signature a n' form' k' s' sender' signature' a',
  acyclic (ch_types c) -> told_apart (ch_types c) ->
  ch_params c = inl p -> ch_call c = inl (ep_call p) -> ch_version c = inl v -> (v < 128)%N -> ch_extensions c = inl exts -> ch_spec c = inl nv ->
  usual_extrinsic (ch_types c) p exts n form k -> (n < 256)%N -> usual_extrinsic (ch_types c) p exts n' form' k' -> (n' < 256)%N ->
  printed_spec_version nv = dec_string (sg_version s) -> proper s ->
  printed_spec_version nv = dec_string (sg_version s') -> proper s' ->
  is_bytes sender -> List.length sender = 32%nat -> is_bytes signature -> List.length signature = raw_len k ->
  is_bytes sender' -> List.length sender' = 32%nat -> is_bytes signature' -> List.length signature' = raw_len k' ->
  (exists i j pallet name l, a = Order i j pallet name l) -> allowed (ch_types c) HNone (ep_call p) a ->
  (exists i j pallet name l, a' = Order i j pallet name l) -> allowed (ch_types c) HNone (ep_call p) a' ->
  (N.of_nat (List.length (included_bytes v sender n signature (extra_bytes s exts) (arg_bytes a))) < 2 ^ 32)%N ->
  (N.of_nat (List.length (included_bytes v sender' n' signature' (extra_bytes s' exts) (arg_bytes a'))) < 2 ^ 32)%N ->
  forall b58 specs, base58_faithful b58 -> (decimals specs < 256)%N ->
  sender_lines b58 specs sender = sender_lines b58 specs sender' ->
  signature_lines form k signature = signature_lines form' k' signature' ->
  extra_lines specs s exts = extra_lines specs s' exts ->
  arg_lines b58 specs true a = arg_lines b58 specs true a' ->
  sender = sender' /\ n = n' /\ signature = signature' /\ PropTells2.included_alike exts s s' /\ a = a'.
Proof.
  intros ME c p v exts nv n form k s sender signature a n' form' k' s' sender' signature' a'
    Ha Hap Hp Hc Hver Hv He Hn U N0 U' N0' V P V' P' B1 L1 B2 L2 B1' L1' B2' L2' O A O' A' Z Z' b58 specs F D E1 E2 E3 E4.
  pose proof (content_fits _ _ _ Z) as W.
  destruct (order_included c p v n form k exts nv Ha Hp Hc Hver Hv He U Hn N0 s None sender signature a V P)
    as (ad & sg & e & call & xs & _ & (Hb & _) & _ & Hu & L); try assumption; [exact I|].
  destruct (L b58 (fun x => x) specs "" PropSee.plain_bits) as (M1 & M2 & M3 & M4). clear L.
  rewrite E1 in M1. rewrite E2 in M2. rewrite E3 in M3. rewrite E4 in M4.
  assert (Q2 : is_bytes (included_bytes v sender n signature (extra_bytes s exts) (arg_bytes a))).
  { unfold included_bytes. cbv zeta. apply is_bytes_app. split; [apply (compact_enc_fits_is_bytes U32); exact W|]. constructor; [|exact Hb]. clear -Hv. unfold is_byte. lia. }
  destruct (c84_only_included ME c p v n' form' k' exts nv s' sender' signature' a' Ha Hap Hp Hc Hver Hv He U' N0' Hn V' P'
    B1' L1' B2' L2' O' A' Z' b58 (fun x => x) specs "" PropSee.plain_bits _ ad sg e call F PropSee.plain_bits_faithful D Q2 Hu M1 M2 M3 M4) as (fo & E).
  clear Q2 Hu Hb W. rewrite <- (app_nil_r (arg_bytes a)) in E, Z.
  destruct (c84_bytes_tell (ch_types c) (ep_call p) exts v s sender n signature a [] v s' sender' n' signature' a' fo P P' L1 L1') with
    (data := included_bytes v sender n signature (extra_bytes s exts) (arg_bytes a ++ []))
    as (_ & R1 & R2 & R3 & R4 & R5 & _); try assumption; try reflexivity.
  - intros <-. rewrite L2, L2'. f_equal. destruct U as (_ & _ & U & _), U' as (_ & _ & U' & _). exact (PropTells2.signature_kind _ _ _ _ _ _ _ U U').
  - exact (conj R1 (conj R2 (conj R3 (conj R4 R5)))).
Qed.
Print Assumptions c84_lines_tell.

(** ** Not signed *)

Theorem c84_unsigned : forall ME (c : chain ME) p v a,
  acyclic (ch_types c) -> ch_params c = inl p -> ch_call c = inl (ep_call p) -> ch_version c = inl v -> (v < 128)%N ->
  (exists i j pallet name l, a = Order i j pallet name l) -> allowed (ch_types c) HNone (ep_call p) a ->
  (N.of_nat (List.length (inherent v (arg_bytes a))) < 2 ^ 32)%N ->
  exists d, unchecked_extrinsic c (inherent v (arg_bytes a)) = Ok (UxUnsigned d) /\
    forall b58 icon specs chain_name bits, map (show bits) (card_call b58 icon specs chain_name d 0) = arg_lines b58 specs true a.
Proof.
  intros ME c p v a H1 H2 H3 H4 H5 H6 H7 H8.
  destruct (order_is_call ME c (ep_call p) a H1 H3 H6 H7) as (d & Hd & Hb & _ & HL).
  exists d. split; [|exact HL]. apply (c69_unsigned ME c p v (arg_bytes a) d); try assumption. exact (content_fits _ _ _ H8).
Qed.
Print Assumptions c84_unsigned.

Theorem c84_only_unsigned : forall ME (c : chain ME) p v a,
  acyclic (ch_types c) -> told_apart (ch_types c) ->
  ch_params c = inl p -> ch_call c = inl (ep_call p) -> ch_version c = inl v ->
  (exists i j pallet name l, a = Order i j pallet name l) -> allowed (ch_types c) HNone (ep_call p) a ->
  forall b58 icon specs chain_name bits data d,
  base58_faithful b58 -> bits_faithful bits -> (decimals specs < 256)%N -> is_bytes data ->
  unchecked_extrinsic c data = Ok (UxUnsigned d) ->
  map (show bits) (card_call b58 icon specs chain_name d 0) = arg_lines b58 specs true a ->
  exists following, data = inherent v (arg_bytes a ++ following).
Proof.
  intros ME c p v a H1 Ha H2 H3 H4 H6 H7 b58 icon specs cn bits data d F1 F2 Hd Hb U HL.
  destruct (order_is_call ME c (ep_call p) a H1 H3 H6 H7) as (d0 & Hc & Hb0 & Hh & HL0).
  apply (PropClock.c80_lines b58 icon specs cn bits ME c p v _ d0 data d); try assumption. rewrite HL, HL0. reflexivity.
Qed.
Print Assumptions c84_only_unsigned.
