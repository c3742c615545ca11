(** C62: which error is due; C08: encodings are prefix-free.  Only statements and short
    combinations; proofs in ProofFault.v, ProofFault2.v and ProofPrefixFree.v. *)
From Coq Require Import Lia ZifyBool ZifyNat ZifyN Relations.
From Verif Require Import Base Compact Types Indicators Decode Spec SpecReach SpecKinds SpecHusk SpecBlame SpecFault Sample Api ProofBase ProofCompact ProofSafe ProofSafe2 ProofMain ProofCor ProofWf ProofPrefixFree ProofUnique ProofHint ProofBlame ProofFault ProofFault2 PropDecode PropHints PropBlame.
Local Open Scope string_scope.
Local Open Scope list_scope.

(** C08: in any registry, no encoding of a type is a proper beginning of another. *)
Theorem c08_prefix_free : forall types cpt id v1 v2 b1 b2 rest1 rest2,
  enc types cpt id v1 = Some b1 -> enc types cpt id v2 = Some b2 -> b1 ++ rest1 = b2 ++ rest2 ->
  b1 = b2 /\ rest1 = rest2.
Proof.
  intros types cpt id v1 v2 b1 b2 r1 r2 H1 H2 He. destruct (enc_prefix_free types v1 cpt id v2 b1 b2 r1 r2 H1 H2 He) as [-> Hr].
  split; [reflexivity|]. first [exact Hr|exact (app_inv_head _ _ _ He)].
Qed.
Print Assumptions c08_prefix_free.

(** ... and the bytes tell the value: data begins with the encoding of at most one value. *)
Theorem c08_one_value : forall types cpt id v1 v2 b1 b2 rest1 rest2,
  enc types cpt id v1 = Some b1 -> enc types cpt id v2 = Some b2 -> b1 ++ rest1 = b2 ++ rest2 ->
  v1 = v2 /\ rest1 = rest2.
Proof.
  intros types cpt id v1 v2 b1 b2 r1 r2 H1 H2 He. destruct (c08_prefix_free _ _ _ _ _ _ _ _ _ H1 H2 He) as [-> Hr].
  split; [exact (enc_told types v1 _ _ _ _ H1 H2)|exact Hr].
Qed.
Print Assumptions c08_one_value.

(** An error that does not accuse the registry is the first fault in the data, in any registry. *)
Theorem c62_first_fault : forall types data id pos x q, is_bytes data -> (pos <= List.length data)%nat ->
  decode_at types data id pos = (Err x, q) -> (forall y, x <> PRegistry y) ->
  fault types data false id pos x.
Proof. exact decode_first_fault. Qed.
Print Assumptions c62_first_fault.

(** There is at most one fault, and none where a value stands. *)
Theorem c62_one_fault : forall types data cpt id pos x y,
  fault types data cpt id pos x -> fault types data cpt id pos y -> x = y.
Proof. intros types data cpt id pos x y Hx Hy. exact (fault_unique types data cpt id pos x Hx y Hy). Qed.
Print Assumptions c62_one_fault.

Theorem c62_no_value : forall types data cpt id pos x v bs, fault types data cpt id pos x ->
  enc types cpt id v = Some bs -> ~ stands data bs pos.
Proof. intros types data cpt id pos x v bs H. exact (fault_excludes types data cpt id pos x H v bs). Qed.
Print Assumptions c62_no_value.

(** [decode_at] returns a value or an error. *)
Lemma answers types data id pos : (exists x q, decode_at types data id pos = (Ok x, q)) \/ exists y q, decode_at types data id pos = (Err y, q).
Proof.
  pose proof (proj1 (c11_no_panic_type unit (slice_buffer data) (portable types) (good_slice data) (good_portable types)) id pos tt) as H.
  unfold decode_at. destruct (decode_as_type_at_position _ _ _ _ _) as [ [o q] u]. cbn [fst] in H. destruct H as [ [z ->] | [z ->] ]; [left|right]; eauto.
Qed.

Lemma value_stands types data id pos x q : is_bytes data -> (pos <= List.length data)%nat -> decode_at types data id pos = (Ok x, q) ->
  exists v bs, enc types false id v = Some bs /\ stands data bs pos.
Proof.
  intros Hb Hp H. destruct (c04_sound _ _ _ _ _ _ Hb H) as (v & He & _ & Hq). exists v, (slice data pos (q - pos)). split; [exact He|].
  exists (firstn pos data), (skipn (q - pos) (skipn pos data)). split; [|apply firstn_length_le, Hp].
  unfold slice. rewrite firstn_skipn. symmetry. apply firstn_skipn.
Qed.

(** Data with a fault are rejected, with this fault unless the registry is to blame. *)
Theorem c62_rejected : forall types data id pos x, is_bytes data -> (pos <= List.length data)%nat ->
  fault types data false id pos x ->
  exists y q, decode_at types data id pos = (Err y, q) /\ (y = x \/ exists z, y = PRegistry z).
Proof.
  intros types data id pos x Hb Hp Hf. destruct (answers types data id pos) as [ (z & q & H) | (y & q2 & H) ].
  - destruct (value_stands _ _ _ _ _ _ Hb Hp H) as (v & bs & He & Hs). destruct (c62_no_value _ _ _ _ _ _ _ _ Hf He Hs).
  - exists y, q2. split; [exact H|]. assert (Hd : (exists z, y = PRegistry z) \/ forall z, y <> PRegistry z) by (destruct y; eauto; right; discriminate).
    destruct Hd as [Hd|Hd]; [auto|]. left. exact (c62_one_fault _ _ _ _ _ _ _ (c62_first_fault _ _ _ _ _ _ Hb Hp H Hd) Hf).
Qed.
Print Assumptions c62_rejected.

(** With usable types: the error is exactly the first fault. *)
Theorem c62_exact : forall types data id pos x, is_bytes data -> (pos <= List.length data)%nat -> usable types id ->
  (exists q, decode_at types data id pos = (Err x, q)) <-> fault types data false id pos x.
Proof.
  intros types data id pos x Hb Hp Hu. split.
  - intros [q H]. apply (c62_first_fault _ _ _ _ _ _ Hb Hp H). intros y ->. exact (c61_registry_innocent _ _ _ _ _ _ Hb Hp Hu H).
  - intros Hf. destruct (c62_rejected _ _ _ _ _ Hb Hp Hf) as (y & q & H & [-> | [z ->] ]); [eauto|].
    destruct (c61_registry_innocent _ _ _ _ _ _ Hb Hp Hu H).
Qed.
Print Assumptions c62_exact.

(** With usable types, either a value stands there, or there is exactly one fault. *)
Theorem c62_value_or_fault : forall types data id pos, is_bytes data -> (pos <= List.length data)%nat -> usable types id ->
  ((exists v bs, enc types false id v = Some bs /\ stands data bs pos) /\ forall x, ~ fault types data false id pos x) \/
  ((forall v bs, enc types false id v = Some bs -> ~ stands data bs pos) /\
   exists x, fault types data false id pos x /\ forall y, fault types data false id pos y -> y = x).
Proof.
  intros types data id pos Hb Hp Hu. destruct (answers types data id pos) as [ (z & q & H) | (y & q2 & H) ].
  - left. destruct (value_stands _ _ _ _ _ _ Hb Hp H) as (v & bs & He & Hs). split; [eauto|]. intros x Hf. exact (c62_no_value _ _ _ _ _ _ _ _ Hf He Hs).
  - right. assert (Hf : fault types data false id pos y) by (apply c62_exact; eauto). split; [intros v bs; apply (c62_no_value _ _ _ _ _ _ _ _ Hf)|].
    exists y. split; [exact Hf|]. intros z Hz. exact (c62_one_fault _ _ _ _ _ _ _ Hz Hf).
Qed.
Print Assumptions c62_value_or_fault.

(** ** Values of usable types are decoded, whatever else there is in the registry. *)

Lemma hinted_error types data id pos h x q : decode_hinted h types data id pos = (Err x, q) <-> decode_at types data id pos = (Err x, q).
Proof.
  rewrite decode_at_hinted. unfold decode_hinted.
  destruct (c12_hints_only_label unit (slice_buffer data) (portable types) h HNone id pos tt) as (Hp & _ & Hr).
  destruct (decode_with_type _ _ _ (Propagated (Checker None h []) []) _ _) as [ [o1 q1] e1], (decode_with_type _ _ _ (Propagated (Checker None HNone []) []) _ _) as [ [o2 q2] e2].
  cbn [fst snd] in *. subst q2. destruct o1, o2; try contradiction; split; intros H; try discriminate; congruence.
Qed.

(** The decoder is its specification: with usable types, a value is returned exactly if one
    stands there, as it is to be shown (given the hint of the extension it belongs to), with the
    position after it; and an error exactly if there is this fault. *)
Theorem c62_decoder : forall types data id pos h, is_bytes data -> (pos <= List.length data)%nat -> usable types id ->
  (forall x q, decode_hinted h types data id pos = (Ok x, q) <->
     exists v bs, enc types false id v = Some bs /\ stands data bs pos /\ q = (pos + List.length bs)%nat /\
       view types false h id v = Some (x_data x, x_info x)) /\
  (forall x, (exists q, decode_hinted h types data id pos = (Err x, q)) <-> fault types data false id pos x).
Proof.
  intros types data id pos h Hb Hp Hu.
  assert (He : forall x, (exists q, decode_hinted h types data id pos = (Err x, q)) <-> fault types data false id pos x).
  { intros x. rewrite <- c62_exact by assumption. split; intros [q H]; exists q; apply (hinted_error types data id pos h); exact H. }
  assert (Hs : forall x q, decode_hinted h types data id pos = (Ok x, q) -> exists v bs, enc types false id v = Some bs /\ stands data bs pos /\ q = (pos + List.length bs)%nat /\
       view types false h id v = Some (x_data x, x_info x)).
  { intros x q H. destruct (hinted_sound _ _ _ _ _ _ _ Hb H) as (v & bs & He2 & Hw & _ & Hh & ->).
    exists v, bs. split; [exact He2|]. split; [apply stands_has; auto|auto]. }
  split; [|exact He]. intros x q. split; [apply Hs|]. intros (v & bs & Hv & Hst & -> & Hw).
  destruct (decode_hinted h types data id pos) as [o q2] eqn:Hd. pose proof (hinted_returns types h data id pos) as Hr. rewrite Hd in Hr. cbn [fst] in Hr.
  destruct Hr as [ (y & ->) | (y & ->) ].
  - destruct (Hs y q2 eq_refl) as (v2 & bs2 & Hv2 & Hst2 & -> & Hw2). destruct (stands_tails _ _ _ _ Hst Hst2) as (r1 & r2 & Heq).
    destruct (c08_one_value _ _ _ _ _ _ _ _ _ Hv Hv2 Heq) as [<- _]. rewrite Hv in Hv2. injection Hv2 as <-. rewrite Hw in Hw2. f_equal. f_equal.
    destruct x as [xa xb], y as [ya yb]. cbn in Hw2. congruence.
  - assert (Hf : fault types data false id pos y) by (apply He; eauto). destruct (c62_no_value _ _ _ _ _ _ _ _ Hf Hv Hst).
Qed.
Print Assumptions c62_decoder.

(** C03 for usable types in any registry, hints included. *)
Theorem c03_round_trip_usable : forall types id h v bs d l pre post, usable types id ->
  enc types false id v = Some bs -> view types false h id v = Some (d, l) -> is_bytes (pre ++ post) ->
  decode_hinted h types (pre ++ bs ++ post) id (List.length pre) = (Ok (Ext d l), (List.length pre + List.length bs)%nat).
Proof.
  intros types id h v bs d l pre post Hu He Hv Hb. apply is_bytes_app in Hb. destruct Hb as [Hb1 Hb2].
  assert (Hb : is_bytes (pre ++ bs ++ post)) by (apply is_bytes_app; split; [exact Hb1|apply is_bytes_app; split; [eapply enc_bytes; eauto|exact Hb2] ]).
  apply (c62_decoder types (pre ++ bs ++ post) id (List.length pre) h Hb ltac:(rewrite app_length; lia) Hu). exists v, bs.
  repeat split; auto. exists pre, post. auto.
Qed.
Print Assumptions c03_round_trip_usable.

(** Whole blobs: the first fault, or bytes after the value. *)
Theorem c62_exact_all : forall types data id x, is_bytes data -> usable types id ->
  decode_all types data id = Err x <->
  fault types data false id 0 x \/
  exists v bs rest, enc types false id v = Some bs /\ data = bs ++ rest /\ rest <> [] /\ x = SomeDataNotUsedBlob (List.length bs).
Proof.
  intros types data id x Hb Hu. pose proof (c14_whole_blob types data id) as Hw. assert (Hp : (0 <= List.length data)%nat) by lia.
  assert (Hval : forall y q, decode_at types data id 0 = (Ok y, q) -> exists v bs rest, enc types false id v = Some bs /\ data = bs ++ rest /\ q = List.length bs).
  { intros y q H. destruct (c04_sound _ _ _ _ _ _ Hb H) as (v & He & _ & Hq). exists v, (slice data 0 (q - 0)), (skipn (q - 0) data). split; [exact He|].
    split; [symmetry; apply (firstn_skipn (q - 0) data)|exact Hq]. }
  destruct (answers types data id 0) as [ (z & q & H) | (y & q2 & H) ]; rewrite H in Hw.
  - destruct (Hval _ _ H) as (v & bs & rest & He & Hd & Hq). split.
    + intros Hx. right. exists v, bs, rest. destruct (Nat.eqb_spec q (List.length data)) as [Heq|Hne]; rewrite Hw in Hx; [discriminate|].
      injection Hx as <-. split; [exact He|]. split; [exact Hd|]. split; [intros ->; rewrite app_nil_r in Hd; congruence|congruence].
    + intros [Hf|(v2 & bs2 & rest2 & He2 & Hd2 & Hr & ->)].
      * destruct (c62_no_value _ _ _ _ _ _ _ _ Hf He). exists [], rest. auto.
      * rewrite Hd2 in Hd. destruct (c08_prefix_free _ _ _ _ _ _ _ _ _ He2 He Hd) as [-> ->]. rewrite <- Hq.
        destruct (Nat.eqb_spec q (List.length data)) as [Heq|_]; [|exact Hw]. rewrite Heq, Hd2, app_length in Hq. destruct rest; [contradiction|cbn [List.length] in Hq; lia].
  - assert (Hf : fault types data false id 0 y) by (apply c62_exact; eauto). rewrite Hw. split.
    + intros Hx. injection Hx as <-. auto.
    + intros [Hf2|(v2 & bs2 & rest2 & He2 & Hd2 & Hr & ->)]; [f_equal; exact (c62_one_fault _ _ _ _ _ _ _ Hf Hf2)|].
      destruct (c62_no_value _ _ _ _ _ _ _ _ Hf He2). exists [], rest2. auto.
Qed.
Print Assumptions c62_exact_all.

(** Cases: a pair of a byte and a bool with both its parts wrong has the fault of the first; with
    only the second wrong, its fault; an enum with its index unknown; elements of a vector. *)
Example c62_usable_case : usable bad_types 20.
Proof. exact (proj1 c61_innocent_case). Qed.

Example c62_cases :
  fault bad_types [5; 7; 2]%N false 20 1 (TypeFailure 2 "bool") /\
  (forall x, fault bad_types [5; 7; 2]%N false 20 1 x -> x = TypeFailure 2 "bool") /\
  fault bad_types [5]%N false 20 1 (PBuffer (DataTooShort 1 1)) /\
  fault bad_types [5; 7]%N false 20 1 (PBuffer (DataTooShort 2 1)) /\
  fault bad_types [5; 9; 8; 7]%N false 7 1 (UnexpectedEnumVariant 1) /\
  fault bad_types [5; 8; 255; 255; 1]%N false 5 1 (TypeFailure 1 "str") /\
  fault bad_types [5; 3; 255; 255; 255; 255]%N false 13 1 (PBuffer (DataTooShort 1 536870917)) /\
  fault bad_types [5; 1]%N false 4 1 (NoCompact 1).
Proof.
  assert (Hg : forall types data id pos x, (exists q, decode_at types data id pos = (Err x, q)) -> is_bytes data -> (pos <= List.length data)%nat ->
    (forall y, x <> PRegistry y) -> fault types data false id pos x) by (intros types data id pos x [q H] ? ? ?; eapply c62_first_fault; eauto).
  assert (H1 : fault bad_types [5; 7; 2]%N false 20 1 (TypeFailure 2 "bool")).
  { apply Hg; [eexists; vm_compute; reflexivity| | |discriminate]; [unfold is_bytes; repeat (apply Forall_cons; [reflexivity|]); apply Forall_nil|cbn; lia]. }
  split; [exact H1|]. split; [intros x Hx; exact (c62_one_fault _ _ _ _ _ _ _ Hx H1)|].
  repeat split; apply Hg; try (eexists; vm_compute; reflexivity); try discriminate; try (cbn; lia); unfold is_bytes; repeat (apply Forall_cons; [reflexivity|]); apply Forall_nil.
Qed.

(** The fault told by hand, without the decoder: the byte is in order, the bool is not. *)
Example c62_by_hand : fault bad_types [5; 7; 2]%N false 20 1 (TypeFailure 2 "bool").
Proof.
  eapply (Fault_member bad_types [5; 7; 2]%N false 20 1 _ [1%N] 19%N [] [VNum 7] [7%N]); [vm_compute; reflexivity|vm_compute; reflexivity|discriminate|vm_compute; reflexivity| |].
  - exists [5%N], [2%N]. split; reflexivity.
  - eapply Fault_leaf; [vm_compute; reflexivity|]. apply LF_wrong; [reflexivity|intros *; vm_compute; discriminate|]. cbn [skipn List.length]. apply Wrong_bool; [vm_compute; reflexivity|lia|lia].
Qed.
