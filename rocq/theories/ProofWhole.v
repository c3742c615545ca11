(** C63: proofs about the answers told with encodings only. *)
From Coq Require Import Lia ZifyBool ZifyNat ZifyN.
From Verif Require Import Base Compact Types Indicators Decode Sign Storage Unchecked Spec SpecSource SpecKinds SpecFault ApiSign ApiStorage Api SpecSign
  SpecStorage SpecUnchecked Meta SpecMeta SpecWhole ProofBase ProofCompact ProofLeaf ProofPrefixFree ProofSafe ProofSafe2 ProofCor ProofWf ProofFault ProofFault2 ProofSign ProofSign2
  ProofStorage ProofUnchecked ProofKey PropFault.
Local Open Scope list_scope.

(** ** At most one answer, in any registry *)

Lemma ext_same (x y : ext pdata) o : o = Some (x_data x, x_info x) -> o = Some (x_data y, x_info y) -> x = y.
Proof. destruct x as [xa xb], y as [ya yb]. intros -> H. cbn in H. congruence. Qed.

Lemma one_value types data id p v1 v2 b1 b2 : enc types false id v1 = Some b1 -> enc types false id v2 = Some b2 ->
  stands data b1 p -> stands data b2 p -> v1 = v2 /\ b1 = b2.
Proof.
  intros H1 H2 S1 S2. destruct (stands_tails _ _ _ _ S1 S2) as (r & s & He).
  destruct (c08_one_value _ _ _ _ _ _ _ _ _ H1 H2 He) as [-> _]. split; congruence.
Qed.

Section Unique.
Variable types : list ty.
Variable data : bytes.

Lemma reading_unique h id p r1 r2 : reading types data h id p r1 -> reading types data h id p r2 -> r1 = r2.
Proof.
  intros H1 H2. destruct H1 as [v1 b1 x1 E1 S1 V1|y1 F1], H2 as [v2 b2 x2 E2 S2 V2|y2 F2].
  - destruct (one_value _ _ _ _ _ _ _ _ E1 E2 S1 S2) as [<- <-]. rewrite (ext_same _ _ _ V1 V2). reflexivity.
  - destruct (c62_no_value _ _ _ _ _ _ _ _ F2 E1 S1).
  - destruct (c62_no_value _ _ _ _ _ _ _ _ F1 E2 S2).
  - rewrite (c62_one_fault _ _ _ _ _ _ _ F1 F2). reflexivity.
Qed.

Lemma readings_unique l : forall p r1 r2, readings types data l p r1 -> readings types data l p r2 -> r1 = r2.
Proof.
  induction l as [|[h id] l IH]; intros p r1 r2 H1 H2; inversion H1; subst; inversion H2; subst; try reflexivity;
    match goal with A : reading _ _ h id p _, B : reading _ _ h id p _ |- _ => pose proof (reading_unique _ _ _ _ _ A B) as He end;
    try discriminate; try congruence; injection He as <- <-;
    match goal with A : readings _ _ l _ _, B : readings _ _ l _ _ |- _ => pose proof (IH _ _ _ A B) as He end; congruence.
Qed.

Lemma whole_unique id r1 r2 : whole_reading types data id r1 -> whole_reading types data id r2 -> r1 = r2.
Proof.
  assert (Hall : forall bs rest, data = bs ++ rest -> stands data bs 0) by (intros bs rest ->; exists [], rest; auto).
  assert (Hd : stands data data 0) by (exists [], []; rewrite app_nil_r; auto).
  intros H1 H2. destruct H1 as [v1 x1 E1 V1|v1 b1 t1 E1 D1 N1|y1 F1], H2 as [v2 x2 E2 V2|v2 b2 t2 E2 D2 N2|y2 F2].
  - destruct (one_value _ _ _ _ _ _ _ _ E1 E2 Hd Hd) as [<- _]. rewrite (ext_same _ _ _ V1 V2). reflexivity.
  - destruct (one_value _ _ _ _ _ _ _ _ E1 E2 Hd (Hall _ _ D2)) as [_ He]. exfalso. rewrite He in D2. apply (f_equal (@List.length N)) in D2.
    rewrite app_length in D2. destruct t2; [contradiction|cbn in D2; lia].
  - destruct (c62_no_value _ _ _ _ _ _ _ _ F2 E1 Hd).
  - destruct (one_value _ _ _ _ _ _ _ _ E2 E1 Hd (Hall _ _ D1)) as [_ He]. exfalso. rewrite He in D1. apply (f_equal (@List.length N)) in D1.
    rewrite app_length in D1. destruct t1; [contradiction|cbn in D1; lia].
  - destruct (one_value _ _ _ _ _ _ _ _ E1 E2 (Hall _ _ D1) (Hall _ _ D2)) as [_ <-]. reflexivity.
  - destruct (c62_no_value _ _ _ _ _ _ _ _ F2 E1 (Hall _ _ D1)).
  - destruct (c62_no_value _ _ _ _ _ _ _ _ F1 E2 Hd).
  - destruct (c62_no_value _ _ _ _ _ _ _ _ F1 E2 (Hall _ _ D2)).
  - rewrite (c62_one_fault _ _ _ _ _ _ _ F1 F2). reflexivity.
Qed.
End Unique.

Section UniqueTx.
Context {ME : Type}.
Variable c : ApiSign.chain ME.

Lemma extensions_told_unique g data start o1 o2 : extensions_told c g data start o1 -> extensions_told c g data start o2 -> o1 = o2.
Proof.
  intros H1 H2. destruct H1, H2; try congruence;
    match goal with A : ch_extensions c = inl ?l, B : ch_extensions c = inl ?m |- _ => assert (l = m) by congruence; subst m end;
    match goal with A : readings _ _ _ _ _, B : readings _ _ _ _ _ |- _ => pose proof (readings_unique _ _ _ _ _ _ A B) as He end;
    try discriminate; try congruence; injection He as <-; try congruence;
    match goal with A : ch_spec c = inl ?l, B : ch_spec c = inl ?m |- _ => assert (l = m) by congruence; subst m end;
    match goal with A : judged _ _ _ _, B : judged _ _ _ _ |- _ => pose proof (judged_unique _ _ _ _ _ A B) as Hj end; congruence.
Qed.

Lemma call_begins_unique data start o1 o2 : call_begins c data start o1 -> call_begins c data start o2 -> o1 = o2.
Proof.
  intros H1 H2. destruct H1, H2; try congruence;
    match goal with A : ch_call c = inl ?l, B : ch_call c = inl ?m |- _ => assert (l = m) by congruence; subst m end;
    match goal with A : reading _ _ _ _ _ _, B : reading _ _ _ _ _ _ |- _ => pose proof (reading_unique _ _ _ _ _ _ _ A B) as He end;
    try discriminate; try congruence; injection He as <- <-; try congruence;
    exfalso; match goal with A : forall d, _ <> DCall d, B : _ = DCall _ |- _ => exact (A _ B) end.
Qed.

Lemma call_told_unique data start r1 r2 : call_told c data start r1 -> call_told c data start r2 -> r1 = r2.
Proof.
  intros H1 H2. destruct H1, H2; 
    match goal with A : call_begins _ _ _ _, B : call_begins _ _ _ _ |- _ => pose proof (call_begins_unique _ _ _ _ A B) as He end; congruence.
Qed.

Lemma split_unique n call rest n' call' rest' : fits U32 n = true -> fits U32 n' = true ->
  compact_enc n ++ call ++ rest = compact_enc n' ++ call' ++ rest' -> N.of_nat (List.length call) = n -> N.of_nat (List.length call') = n' ->
  n = n' /\ call = call' /\ rest = rest'.
Proof.
  intros F1 F2 He L1 L2. destruct (prefix_unique n n' (call ++ rest) (call' ++ rest') F1 F2 He) as [-> He2]. split; [reflexivity|].
  apply app_same_length in He2; [exact He2|lia].
Qed.

Lemma transaction_told_unique g data o1 o2 : transaction_told c g data o1 -> transaction_told c g data o2 -> o1 = o2.
Proof.
  intros H1 H2. destruct H1, H2; try reflexivity;
    try (exfalso; match goal with A : forall n call rest, _ -> _ -> _ <> n, B : data = _ |- _ => eapply A; [|exact B|]; eassumption end);
    match goal with A : data = _ ++ _ ++ _, B : data = _ ++ _ ++ _ |- _ =>
      rewrite A in B; apply split_unique in B; [destruct B as (<- & <- & <-)|eassumption..] end;
    match goal with A : extensions_told _ _ _ _ _, B : extensions_told _ _ _ _ _ |- _ => pose proof (extensions_told_unique _ _ _ _ _ A B) as He end;
    try discriminate; try congruence.
  injection He as <-. match goal with A : call_told _ _ _ _, B : call_told _ _ _ _ |- _ => pose proof (call_told_unique _ _ _ _ A B) as Hc end. congruence.
Qed.

Lemma transaction_unmarked_told_unique g data o1 o2 : transaction_unmarked_told c g data o1 -> transaction_unmarked_told c g data o2 -> o1 = o2.
Proof.
  intros H1 H2. destruct H1, H2;
    match goal with A : call_begins _ _ _ _, B : call_begins _ _ _ _ |- _ => pose proof (call_begins_unique _ _ _ _ A B) as Hc end; try congruence;
    injection Hc as <- <-;
    match goal with A : extensions_told _ _ _ _ _, B : extensions_told _ _ _ _ _ |- _ => pose proof (extensions_told_unique _ _ _ _ _ A B) as He end; congruence.
Qed.

Lemma unchecked_told_unique data o1 o2 : unchecked_told c data o1 -> unchecked_told c data o2 -> o1 = o2.
Proof.
  assert (Hfr : forall content, framed data content -> exists n, fits U32 n = true /\ data = compact_enc n ++ content /\ N.of_nat (List.length content) = n).
  { intros content [H1 H2]. eauto. }
  intros H1 H2. destruct H1; destruct H2; try congruence;
    repeat match goal with A : framed data _ |- _ =>
      let n := fresh "n" in let F := fresh "F" in let D := fresh "D" in let L := fresh "L" in
      pose proof (Hfr _ A) as (n & F & D & L); revert A end; intros;
    try (exfalso; match goal with A : forall n post, _ -> data <> _, B : data = _ |- _ => eapply A; [|exact B]; assumption end);
    repeat match goal with A : data = compact_enc ?n ++ ?p, B : data = compact_enc ?m ++ ?q |- _ =>
      lazymatch goal with Z : n = m /\ p = q |- _ => fail | _ =>
      assert (n = m /\ p = q) by (apply prefix_unique; [assumption|assumption|congruence]) end end;
    repeat match goal with A : _ /\ _ |- _ => destruct A end; subst; try lia; try congruence;
    repeat match goal with A : _ :: _ = _ :: _ |- _ => injection A as ? ?; subst end; try congruence; try discriminate;
    match goal with A : ch_params c = inl ?p, B : ch_params c = inl ?q |- _ => assert (p = q) by congruence; subst end;
    match goal with A : readings _ _ _ _ _, B : readings _ _ _ _ _ |- _ => pose proof (readings_unique _ _ _ _ _ _ A B) as Ht end;
    try discriminate; injection Ht; intros; subst; try congruence;
    try (match goal with A : shape (_ ++ _) _ |- _ => apply shape_last in A; destruct A end; exfalso; eauto);
    try (f_equal; eapply shape_unique; eassumption).
  all: match goal with A : forall d, x_data ?x <> DCall d, B : x_data ?x = DCall ?d |- _ => exact (A d B) end.
Qed.
End UniqueTx.

Section UniqueStorage.
Variables blake2_128 twox_64 : bytes -> bytes.
Variable types : list ty.
Variable key : bytes.
Local Notation part_told := (part_told blake2_128 twox_64 types key).
Local Notation parts_told := (parts_told blake2_128 twox_64 types key).

Lemma same_place l1 l2 p : stands key l1 p -> stands key l2 p -> List.length l1 = List.length l2 -> l1 = l2.
Proof. intros S1 S2 Hl. destruct (stands_tails _ _ _ _ S1 S2) as (r & s & He). apply app_same_length in He; [apply He|exact Hl]. Qed.

Lemma hashed_place l1 l2 b1 b2 id v1 v2 p : enc types false id v1 = Some b1 -> enc types false id v2 = Some b2 ->
  stands key (l1 ++ b1) p -> stands key (l2 ++ b2) p -> List.length l1 = List.length l2 -> l1 = l2 /\ v1 = v2 /\ b1 = b2.
Proof.
  intros E1 E2 S1 S2 Hl. apply stands_app_inv in S1, S2. destruct S1 as [S1 T1], S2 as [S2 T2].
  pose proof (same_place _ _ _ S1 S2 Hl) as ->. split; [reflexivity|]. exact (one_value _ _ _ _ _ _ _ _ E1 E2 T1 T2).
Qed.

Lemma stands_enough l p n : stands key l p -> (n <= List.length l)%nat -> lacks key p (N.of_nat n) -> False.
Proof. intros S Hn. exact (stands_long _ _ _ (N.of_nat n) S ltac:(lia)). Qed.

Lemma part_told_unique h id p r1 r2 : part_told h id p r1 -> part_told h id p r2 -> r1 = r2.
Proof.
  intros H1 H2. destruct H1, H2; try congruence; try (destruct h; discriminate);
    repeat match goal with
    | A : opaque_kind h = Some _, B : opaque_kind h = Some _ |- _ => rewrite A in B; injection B as <- <-
    | A : concat_kind _ _ h = Some _, B : concat_kind _ _ h = Some _ |- _ => rewrite A in B; injection B as <- <-
    end; try reflexivity; try contradiction;
    try (exfalso; match goal with A : stands key ?l p, B : lacks key p _ |- _ => eapply (stands_enough l p _ A); [|exact B]; rewrite ?app_length; lia end);
    try (exfalso; match goal with A : stands key (?l ++ ?b) p, B : fault _ _ _ _ ?q _, E : enc _ _ _ _ = Some ?b |- _ =>
           apply stands_app_inv in A; destruct A as [_ A]; replace q with (p + List.length l)%nat in B by lia; exact (c62_no_value _ _ _ _ _ _ _ _ B E A) end).
  - match goal with A : stands key _ p, B : stands key _ p |- _ => pose proof (same_place _ _ _ A B ltac:(congruence)) end. congruence.
  - match goal with A : fault _ _ _ _ _ _, B : fault _ _ _ _ _ _ |- _ => rewrite (c62_one_fault _ _ _ _ _ _ _ A B) end. reflexivity.
  - exfalso. match goal with A : enc _ _ _ _ = Some bs, B : enc _ _ _ _ = Some ?b2, C : stands key (_ ++ bs) p, D : stands key (_ ++ ?b2) p |- _ =>
      destruct (hashed_place _ _ _ _ _ _ _ _ A B C D ltac:(congruence)) as (He & _ & <-) end. congruence.
  - exfalso. match goal with A : enc _ _ _ _ = Some bs, B : enc _ _ _ _ = Some ?b2, C : stands key (_ ++ bs) p, D : stands key (_ ++ ?b2) p |- _ =>
      destruct (hashed_place _ _ _ _ _ _ _ _ A B C D ltac:(congruence)) as (He & _ & <-) end. congruence.
  - match goal with A : enc _ _ _ v = Some bs, B : enc _ _ _ ?v2 = Some ?b2, C : stands key (_ ++ bs) p, D : stands key (_ ++ ?b2) p,
       V : view _ _ _ _ v = _, W : view _ _ _ _ ?v2 = _ |- _ =>
      destruct (hashed_place _ _ _ _ _ _ _ _ A B C D ltac:(congruence)) as (_ & <- & <-); rewrite (ext_same _ _ _ V W) end. reflexivity.
  - match goal with A : fault _ _ _ _ _ _, B : fault _ _ _ _ _ _ |- _ => rewrite (c62_one_fault _ _ _ _ _ _ _ A B) end. reflexivity.
  - match goal with A : fault _ _ _ _ _ _, B : reading _ _ _ _ _ _ |- _ => pose proof (reading_unique _ _ _ _ _ _ _ (R_fault _ _ _ _ _ _ A) B) end. discriminate.
  - match goal with A : fault _ _ _ _ _ _, B : reading _ _ _ _ _ _ |- _ => pose proof (reading_unique _ _ _ _ _ _ _ (R_fault _ _ _ _ _ _ A) B) end. discriminate.
  - match goal with A : reading _ _ _ _ _ _, B : reading _ _ _ _ _ _ |- _ => pose proof (reading_unique _ _ _ _ _ _ _ A B) end. congruence.
Qed.

Lemma parts_told_unique l : forall p r1 r2, parts_told l p r1 -> parts_told l p r2 -> r1 = r2.
Proof.
  induction l as [|[h id] l IH]; intros p r1 r2 H1 H2; inversion H1; subst; inversion H2; subst; try reflexivity;
    match goal with A : part_told h id p _, B : part_told h id p _ |- _ => pose proof (part_told_unique _ _ _ _ _ A B) as He end;
    try discriminate; try congruence; injection He as <- <-;
    match goal with A : parts_told l _ _, B : parts_told l _ _ |- _ => pose proof (IH _ _ _ A B) as He end; congruence.
Qed.

Lemma key_told_unique hs kt start r1 r2 :
  key_told blake2_128 twox_64 types key hs kt start r1 -> key_told blake2_128 twox_64 types key hs kt start r2 -> r1 = r2.
Proof.
  intros H1 H2. destruct H1; subst; inversion H2; subst; try congruence; try (cbn in *; congruence); try lia;
    try (match goal with A : [_] = [_] |- _ => injection A as -> end);
    try (match goal with A : lookup types kt = Some ?x, B : lookup types kt = Some ?y |- _ =>
           assert (x = y) by congruence; subst y end);
    try (match goal with A : t_def ?t = TTuple ?x, B : t_def ?t = TTuple ?y |- _ =>
           assert (x = y) by congruence; subst y end);
    try congruence;
    try (match goal with A : part_told _ kt start _, B : part_told _ kt start _ |- _ => pose proof (part_told_unique _ _ _ _ _ A B) end; congruence);
    try (match goal with A : parts_told _ start _, B : parts_told _ start _ |- _ => pose proof (parts_told_unique _ _ _ _ A B) end; congruence).
Qed.

Lemma entry_told_unique value entry o1 o2 : entry_told blake2_128 twox_64 types key value entry o1 ->
  entry_told blake2_128 twox_64 types key value entry o2 -> o1 = o2.
Proof.
  intros H1 H2. destruct H1, H2; try reflexivity; try lia; try congruence;
    try (match goal with A : en_ty entry = EMap ?a ?b ?c, B : en_ty entry = EMap ?d ?x ?f |- _ =>
           assert (a = d /\ b = x /\ c = f) as (? & ? & ?) by (rewrite A in B; injection B; auto); subst end);
    try (match goal with A : en_ty entry = EPlain ?a, B : en_ty entry = EPlain ?d |- _ =>
           assert (a = d) by (rewrite A in B; injection B; auto); subst end);
    try match goal with A : key_told _ _ _ _ _ _ _ _, B : key_told _ _ _ _ _ _ _ _ |- _ => pose proof (key_told_unique _ _ _ _ _ A B) end;
    try match goal with A : whole_reading _ _ _ _, B : whole_reading _ _ _ _ |- _ => pose proof (whole_unique _ _ _ _ _ A B) end;
    congruence.
Qed.
End UniqueStorage.

(** ** The parsers give this answer *)

Section Gives.
Variable types : list ty.
Variable data : bytes.
Hypothesis Hdata : is_bytes data.

Lemma reading_inside h id p x q : reading types data h id p (inl (x, q)) -> (q <= List.length data)%nat.
Proof.
  intros H. remember (inl (x, q)) as r eqn:Hr. destruct H as [v bs x' E S V|y F]; [|discriminate]. injection Hr as <- <-.
  apply stands_has in S. destruct S as [S Hp]. exact (has_le _ _ _ S Hp).
Qed.

Lemma gives_value h id p x q : usable types id -> (p <= List.length data)%nat -> decode_hinted h types data id p = (Ok x, q) ->
  reading types data h id p (inl (x, q)).
Proof.
  intros Hu Hp H. apply (c62_decoder types data id p h Hdata Hp Hu) in H. destruct H as (v & bs & E & S & -> & V). exact (R_value _ _ _ _ _ _ _ _ E S V).
Qed.

Lemma gives_fault h id p y q : usable types id -> (p <= List.length data)%nat -> decode_hinted h types data id p = (Err y, q) ->
  fault types data false id p y.
Proof. intros Hu Hp H. apply (c62_decoder types data id p h Hdata Hp Hu). eauto. Qed.

Lemma gives_turn l : forall p xs q, Forall (fun x => usable types (snd x)) l -> (p <= List.length data)%nat -> read_in_turn types data l p xs q ->
  readings types data (map (fun x => (extension_hint (fst x), snd x)) l) p (inl (xs, q)) /\ (q <= List.length data)%nat.
Proof.
  induction l as [|[i id] l IH]; intros p xs q Hu Hp H; inversion H; subst.
  - split; [constructor|exact Hp].
  - inversion Hu as [|? ? H1 H2]; subst. cbn [snd] in H1.
    match goal with A : decode_hinted _ _ _ _ _ = _ |- _ => pose proof (gives_value _ _ _ _ _ H1 Hp A) as Hr end.
    pose proof (reading_inside _ _ _ _ _ Hr) as Hq. match goal with A : read_in_turn _ _ l _ _ _ |- _ => destruct (IH _ _ _ H2 Hq A) as [Hl Hq2] end.
    split; [|exact Hq2]. cbn [map fst snd]. exact (RS_value _ _ _ _ _ _ _ _ _ _ Hr Hl).
Qed.

Lemma readings_fault l1 : forall h id l2 p xs q y, readings types data l1 p (inl (xs, q)) -> fault types data false id q y ->
  readings types data (l1 ++ (h, id) :: l2) p (inr y).
Proof.
  induction l1 as [|[h1 id1] l1 IH]; intros h id l2 p xs q y H F; inversion H; subst.
  - cbn [app]. apply RS_fault, R_fault, F.
  - cbn [app]. eapply RS_later; [eassumption|]. eapply IH; eassumption.
Qed.

Lemma gives_in_turn {ME} (c : ApiSign.chain ME) l : ch_types c = types -> forall p r, Forall (usable types) l -> (p <= List.length data)%nat ->
  in_turn c data l p r -> readings types data (map (fun id => (HNone, id)) l) p r.
Proof.
  intros Hc. induction l as [|id l IH]; intros p r Hu Hp H.
  - inversion H; subst. constructor.
  - inversion Hu as [|? ? H1 H2]; subst x l0. cbn [map].
    inversion H as [|id' l' p' x q xs q' Hd Hl|id' l' p' y q Hd|id' l' p' x q y Hd Hl]; rewrite decode_at_hinted, Hc in Hd.
    + pose proof (gives_value _ _ _ _ _ H1 Hp Hd) as Hr. pose proof (reading_inside _ _ _ _ _ Hr) as Hq. exact (RS_value _ _ _ _ _ _ _ _ _ _ Hr (IH _ _ H2 Hq Hl)).
    + apply RS_fault, R_fault. exact (gives_fault _ _ _ _ _ H1 Hp Hd).
    + pose proof (gives_value _ _ _ _ _ H1 Hp Hd) as Hr. pose proof (reading_inside _ _ _ _ _ Hr) as Hq. exact (RS_later _ _ _ _ _ _ _ _ _ Hr (IH _ _ H2 Hq Hl)).
Qed.

Lemma gives_whole id : usable types id ->
  match decode_all types data id with Ok x => whole_reading types data id (inl x) | Err y => whole_reading types data id (inr y) | _ => False end.
Proof.
  intros Hu. destruct (decode_all types data id) as [x|y| |] eqn:Hd.
  - destruct (whole_blob_value _ _ _ _ Hdata Hd) as (v & E & V). exact (W_value _ _ _ _ _ E V).
  - apply (c62_exact_all types data id y Hdata Hu) in Hd. destruct Hd as [F|(v & bs & rest & E & D & N & ->)]; [apply W_fault, F|exact (W_more _ _ _ _ _ _ E D N)].
  - pose proof (whole_blob types data id) as Hw. rewrite Hd in Hw. destruct (decode_at _ _ _ _) as [ [ | | | ] q]; try discriminate; try contradiction. destruct (Nat.eqb _ _); discriminate.
  - pose proof (whole_blob types data id) as Hw. rewrite Hd in Hw. destruct (decode_at _ _ _ _) as [ [ | | | ] q]; try discriminate; try contradiction. destruct (Nat.eqb _ _); discriminate.
Qed.
End Gives.

Section GivesTx.
Context {ME : Type}.
Variable c : ApiSign.chain ME.

Lemma gives_extensions g data start o : is_bytes data -> signable_usable c -> (start <= List.length data)%nat ->
  extension_outcome c g data start o -> extensions_told c g data start o.
Proof.
  intros Hb [_ Hu] Hp H.
  assert (Hall : forall l xs q, ch_extensions c = inl l -> read_in_turn (ch_types c) data (extension_sequence l) start xs q ->
    readings (ch_types c) data (extension_types_hinted l) start (inl (xs, q))).
  { intros l xs q Hl Hr. exact (proj1 (gives_turn _ _ Hb _ _ _ _ (Hu _ Hl) Hp Hr)). }
  destruct H as [x H|l l1 i id l2 xs p x q H1 H2 H3 H4|l xs q H1 H2 H3|l xs x H1 H2 H3|l xs nv x H1 H2 H3 H4|l xs nv H1 H2 H3 H4].
  - exact (X_metadata _ _ _ _ _ H).
  - pose proof (Hu _ H1) as Ha. rewrite H2 in Ha. apply Forall_app in Ha. destruct Ha as [Ha1 Ha2]. inversion Ha2 as [|? ? Ha3 _]; subst. cbn [snd] in Ha3.
    destruct (gives_turn _ _ Hb _ _ _ _ Ha1 Hp H3) as [Hr Hq]. apply (X_fault _ _ _ _ _ _ H1). unfold extension_types_hinted. rewrite H2, map_app. cbn [map fst snd].
    exact (readings_fault _ _ _ _ _ _ _ _ _ _ Hr (gives_fault _ _ Hb _ _ _ _ _ Ha3 Hq H4)).
  - exact (X_unused _ _ _ _ _ _ _ H1 (Hall _ _ _ H1 H2) H3).
  - exact (X_no_version _ _ _ _ _ _ _ H1 (Hall _ _ _ H1 H2) H3).
  - exact (X_rejected _ _ _ _ _ _ _ _ H1 (Hall _ _ _ H1 H2) H3 H4).
  - exact (X_accepted _ _ _ _ _ _ _ H1 (Hall _ _ _ H1 H2) H3 H4).
Qed.

(** What is answered for a call of all of the data, from what [decode_at] returns. *)
Lemma gives_call data stop start o : is_bytes (firstn stop data) -> signable_usable c -> (start <= List.length (firstn stop data))%nat -> (stop <= List.length data)%nat ->
  call_outcome c data start stop o ->
  match o with Ok d => call_told c (firstn stop data) start (inl d) | Err x => call_told c (firstn stop data) start (inr x) | _ => False end.
Proof.
  intros Hb [Hu _] Hp Hs H. assert (Hl : List.length (firstn stop data) = stop) by (rewrite firstn_length; lia).
  destruct H as [x H|id x q H1 H2|id x q H1 H2 H3|id x q d H1 H2 H3 H4|id x d H1 H2 H3]; try (rewrite decode_at_hinted in H2).
  - apply CT_error, C_metadata, H.
  - apply CT_error. apply (C_fault _ _ _ _ _ H1). apply R_fault. exact (gives_fault _ _ Hb _ _ _ _ _ (Hu _ H1) Hp H2).
  - apply CT_error. exact (C_not_a_call _ _ _ _ _ _ H1 (gives_value _ _ Hb _ _ _ _ _ (Hu _ H1) Hp H2) H3).
  - rewrite <- Hl at 2. apply CT_unused with (d := d); [|congruence]. exact (C_call _ _ _ _ _ _ _ H1 (gives_value _ _ Hb _ _ _ _ _ (Hu _ H1) Hp H2) H3).
  - apply CT_call. rewrite Hl. exact (C_call _ _ _ _ _ _ _ H1 (gives_value _ _ Hb _ _ _ _ _ (Hu _ H1) Hp H2) H3).
Qed.

Lemma gives_begins data start : is_bytes data -> signable_usable c -> (start <= List.length data)%nat ->
  match fst (decode_as_call_unmarked (slice_buffer data) (chain_metadata c) start tt) with
  | (Ok d, q) => call_begins c data start (Ok (d, q)) /\ (q <= List.length data)%nat
  | (Err x, _) => call_begins c data start (Err x)
  | _ => False
  end.
Proof.
  intros Hb [Hu _] Hp. unfold decode_as_call_unmarked. cbn [chain_metadata m_call_ty m_types].
  destruct (ch_call c) as [id|x] eqn:Hc; [|cbn; apply C_metadata; exact Hc].
  unfold bind at 1. cbn [lift ret]. unfold map_err at 1, ret at 1. unfold bind at 1, map_err at 1.
  pose proof (hinted_returns (ch_types c) HNone data id start) as Hr.
  rewrite <- decode_at_hinted in Hr. pose proof (decode_at_fst (ch_types c) data id start) as Hd.
  rewrite Hd in Hr. destruct (decode_with_type (slice_buffer data) (portable (ch_types c)) (Symbol id) propagated_new start tt) as [ [o q] []].
  cbn [fst] in *. rewrite decode_at_hinted in Hd. destruct Hr as [ (x & ->) | (x & ->) ].
  - pose proof (gives_value _ _ Hb _ _ _ _ _ (Hu _ eq_refl) Hp Hd) as Hg. destruct (x_data x) eqn:Hx; cbn;
      try (refine (C_not_a_call _ _ _ _ _ _ Hc Hg _); congruence).
    split; [exact (C_call _ _ _ _ _ _ _ Hc Hg Hx)|exact (reading_inside _ _ _ _ _ _ _ Hg)].
  - cbn. apply (C_fault _ _ _ _ _ Hc). apply R_fault. exact (gives_fault _ _ Hb _ _ _ _ _ (Hu _ eq_refl) Hp Hd).
Qed.

Lemma gives_transaction g data : is_bytes data -> signable_usable c -> transaction_told c g data (transaction c g data).
Proof.
  intros Hb Hu. rewrite transaction_eq. destruct (@mark_spec ME _ Hb) as [ (n & call & rest & Hf & Hd & Hn & ->) | [Hno ->] ]; [|apply T_cut, Hno].
  set (mk := Marked _ _). assert (Hcs : call_start mk = List.length (compact_enc n)) by reflexivity.
  assert (Hes : extensions_start mk = List.length (compact_enc n ++ call)) by reflexivity. clearbody mk.
  assert (Hle : (extensions_start mk <= List.length data)%nat) by (rewrite Hes, Hd, !app_length; lia).
  assert (Hfi : firstn (extensions_start mk) data = compact_enc n ++ call) by (rewrite Hes, Hd, app_assoc; apply firstn_app_exact).
  assert (Hb2 : is_bytes (compact_enc n ++ call)) by (rewrite Hd, app_assoc in Hb; apply is_bytes_app in Hb; apply Hb).
  pose proof (gives_extensions g data (extensions_start mk) _ Hb Hu Hle (extensions_outcome c g data mk)) as Hx.
  pose proof (gives_call data (extensions_start mk) (call_start mk) _ ltac:(rewrite Hfi; exact Hb2) Hu
    ltac:(rewrite Hfi, Hcs, app_length; lia) Hle (call_answer c data mk Hle)) as Hc.
  rewrite Hes in Hx. rewrite Hfi, Hcs in Hc.
  destruct (extensions_of c g data mk) as [xs|x| |].
  - destruct (call_of c data mk) as [d|x| |]; try contradiction; exact (T_parsed _ _ _ _ _ _ _ _ Hf Hd Hn Hx Hc).
  - exact (T_rejected _ _ _ _ _ _ _ Hf Hd Hn Hx).
  - exfalso. inversion Hx.
  - exfalso. inversion Hx.
Qed.

Lemma gives_unmarked g data : is_bytes data -> signable_usable c -> transaction_unmarked_told c g data (transaction_unmarked c g data).
Proof.
  intros Hb Hu. pose proof (gives_begins data 0 Hb Hu ltac:(lia)) as Hc.
  unfold transaction_unmarked, result, parse_transaction_unmarked. unfold bind at 1, at_local at 1. unfold bind at 1.
  destruct (decode_as_call_unmarked (slice_buffer data) (chain_metadata c) 0 tt) as [ [o q] []]. cbn [fst] in Hc.
  destruct o as [d|x| |]; try contradiction; [|cbn; apply TU_call, Hc]. destruct Hc as [Hc Hq].
  pose proof (gives_extensions g data q _ Hb Hu Hq (extensions_outcome c g data (Marked 0 q))) as Hx.
  unfold extensions_of, result, decode_extensions, at_local in Hx. cbn [extensions_start] in Hx. unfold bind, ret, at_local in *.
  destruct (decode_extensions_unmarked (slice_buffer data) (chain_metadata c) g q tt) as [ [ [ys|y| |] q2] []]; cbn [fst snd] in *.
  - exact (TU_parsed _ _ _ _ _ _ Hc Hx).
  - exact (TU_rejected _ _ _ _ _ _ Hc Hx).
  - inversion Hx.
  - inversion Hx.
Qed.

Lemma gives_unchecked data : is_bytes data -> params_usable c -> unchecked_told c data (unchecked_extrinsic c data).
Proof.
  intros Hb Hu.
  assert (Ht : forall p b (rest : bytes) r, ch_params c = inl p -> in_turn c data (order (128 <=? b)%N p) (List.length data - List.length rest) r ->
    readings (ch_types c) data (part_types b p) (List.length data - List.length rest) r).
  { intros p b rest r Hp H. refine (gives_in_turn _ _ Hb c _ eq_refl _ _ _ _ H); [|lia].
    destruct (Hu _ Hp) as (Ha & Hs & He & Hc). unfold order. destruct (128 <=? b)%N; repeat apply Forall_cons; auto. }
  pose proof (unchecked_ok c data Hb) as H. destruct H.
  - apply UT_params; assumption.
  - eapply UT_no_compact; eassumption.
  - eapply UT_short; eassumption.
  - eapply UT_long; eassumption.
  - eapply UT_empty; eassumption.
  - eapply UT_no_version; eassumption.
  - eapply UT_version; eassumption.
  - eapply UT_fault; try eassumption. eapply Ht; eassumption.
  - eapply UT_not_a_call; try eassumption. eapply Ht; eassumption.
  - eapply UT_parsed; try eassumption. eapply Ht; eassumption.
Qed.
End GivesTx.

Section GivesStorage.
Variables blake2_128 twox_64 : bytes -> bytes.
Variable types : list ty.
Variable key : bytes.
Hypothesis Hkey : is_bytes key.

Lemma slice_stands l p n : (p + n <= List.length l)%nat -> stands l (slice l p n) p.
Proof.
  intros H. exists (firstn p l), (skipn n (skipn p l)). split; [|apply firstn_length_le; lia].
  unfold slice. rewrite firstn_skipn. symmetry. apply firstn_skipn.
Qed.

Lemma slice_len (l : bytes) p n : (p + n <= List.length l)%nat -> List.length (slice l p n) = n.
Proof. intros H. unfold slice. apply firstn_length_le. rewrite skipn_length. lia. Qed.

Lemma gives_part h id p r : (opaque_kind h = None -> usable types id) -> (p <= List.length key)%nat ->
  part_answer blake2_128 twox_64 types key h id p r ->
  part_told blake2_128 twox_64 types key h id p r /\ (forall x q, r = inl (x, q) -> (q <= List.length key)%nat).
Proof.
  intros Hu Hp H.
  assert (Hv : forall n x q, usable types id -> (p + n <= List.length key)%nat -> decode_at types key id (p + n) = (Ok x, q) ->
    exists v bs, enc types false id v = Some bs /\ view types false HNone id v = Some (x_data x, x_info x) /\ q = (p + n + List.length bs)%nat /\
      slice key (p + n) (q - (p + n)) = bs /\ stands key (slice key p n ++ bs) p /\ List.length (slice key p n) = n /\ (q <= List.length key)%nat).
  { intros n x q Hus Hn Hd. rewrite decode_at_hinted in Hd. apply (c62_decoder types key id (p + n) HNone Hkey Hn Hus) in Hd.
    destruct Hd as (v & bs & E & S & -> & V). exists v, bs. split; [exact E|]. split; [exact V|]. split; [reflexivity|].
    pose proof (slice_len key p n Hn) as Hl. pose proof S as S2. apply stands_has in S2. destruct S2 as [S2 _].
    split; [replace (p + n + List.length bs - (p + n))%nat with (List.length bs) by lia; exact S2|].
    split; [apply stands_app; [apply slice_stands, Hn|rewrite Hl; exact S]|]. split; [exact Hl|]. exact (has_le _ _ _ S2 Hn). }
  destruct H as [k n H1 H2|k n H1 H2|f n H1 H2|f n y q H1 H2 H3|f n x q H1 H2 H3 H4|f n x q H1 H2 H3 H4|y q H1 H2|x q H1 H2].
  - split; [|intros x q Hq; injection Hq as <- <-; exact H2]. exact (PT_hash _ _ _ _ _ _ _ _ _ _ H1 (slice_stands _ _ _ H2) (slice_len _ _ _ H2)).
  - split; [|discriminate]. apply (PT_hash_short _ _ _ _ _ _ _ _ _ H1). unfold lacks. lia.
  - split; [|discriminate]. apply (PT_concat_short _ _ _ _ _ _ _ _ _ H1). unfold lacks. lia.
  - split; [|discriminate]. apply (PT_concat_fault _ _ _ _ _ _ _ _ _ _ H1); [unfold lacks; lia|]. rewrite decode_at_hinted in H3.
    refine (gives_fault _ _ Hkey _ _ _ _ _ _ H2 H3). apply Hu. destruct h; try discriminate; reflexivity.
  - split; [|discriminate]. assert (Hus : usable types id) by (apply Hu; destruct h; try discriminate; reflexivity).
    destruct (Hv _ _ _ Hus H2 H3) as (v & bs & E & V & -> & Hsl & S & Hl & _). rewrite Hsl in H4. exact (PT_mismatch _ _ _ _ _ _ _ _ _ _ _ _ H1 Hl E S H4).
  - assert (Hus : usable types id) by (apply Hu; destruct h; try discriminate; reflexivity).
    destruct (Hv _ _ _ Hus H2 H3) as (v & bs & E & V & -> & Hsl & S & Hl & Hq). split; [|intros x' q' He; injection He as <- <-; exact Hq].
    rewrite Hsl in H4. rewrite H4 in S, Hl. exact (PT_concat _ _ _ _ _ _ _ _ _ _ _ _ H1 Hl E S V).
  - split; [|discriminate]. apply PT_plain_fault; [exact H1|]. rewrite decode_at_hinted in H2. refine (gives_fault _ _ Hkey _ _ _ _ _ _ Hp H2). apply Hu. rewrite H1. reflexivity.
  - rewrite decode_at_hinted in H2. assert (Hr : reading types key HNone id p (inl (x, q))).
    { refine (gives_value _ _ Hkey _ _ _ _ _ _ Hp H2). apply Hu. rewrite H1. reflexivity. }
    split; [exact (PT_plain _ _ _ _ _ _ _ _ _ H1 Hr)|]. intros x' q' He. injection He as <- <-. exact (reading_inside _ _ _ _ _ _ _ Hr).
Qed.

Lemma gives_parts l : forall p r, Forall (fun x => opaque_kind (fst x) = None -> usable types (snd x)) l -> (p <= List.length key)%nat ->
  parts_answer blake2_128 twox_64 types key l p r -> parts_told blake2_128 twox_64 types key l p r.
Proof.
  induction l as [|[h id] l IH]; intros p r Hu Hp H; inversion H; subst; try (inversion Hu as [|? ? H1 H2]; subst; cbn [fst snd] in H1).
  - constructor.
  - match goal with A : part_answer _ _ _ _ _ _ _ _ |- _ => destruct (gives_part _ _ _ _ H1 Hp A) as [Hr Hq] end.
    eapply PTS_cons; [exact Hr|]. apply IH; [exact H2|exact (Hq _ _ eq_refl)|assumption].
  - match goal with A : part_answer _ _ _ _ _ _ _ _ |- _ => destruct (gives_part _ _ _ _ H1 Hp A) as [Hr Hq] end. apply PTS_here, Hr.
  - match goal with A : part_answer _ _ _ _ _ _ _ _ |- _ => destruct (gives_part _ _ _ _ H1 Hp A) as [Hr Hq] end.
    eapply PTS_later; [exact Hr|]. apply IH; [exact H2|exact (Hq _ _ eq_refl)|assumption].
Qed.

Lemma gives_key hs kt start r : key_usable types hs kt -> (start <= List.length key)%nat ->
  key_answer blake2_128 twox_64 types key hs kt start r -> key_told blake2_128 twox_64 types key hs kt start r.
Proof.
  intros [Hu1 Hu2] Hp H.
  assert (Hall : forall t ids r, lookup types kt = Some t -> t_def t = TTuple ids -> parts_answer blake2_128 twox_64 types key (combine hs ids) start r ->
    parts_told blake2_128 twox_64 types key (combine hs ids) start r).
  { intros t ids r' Hl Ht Hr. apply gives_parts; [|exact Hp|exact Hr]. apply Forall_forall. intros [h id] Hin. cbn [fst snd]. exact (Hu2 _ _ _ _ Hl Ht Hin). }
  destruct H.
  - eapply KT_single; [eassumption|]. apply gives_part; eauto.
  - eapply KT_single_bad; [eassumption|]. apply gives_part; eauto.
  - eapply KT_single_unused; [eassumption| |eassumption]. eapply gives_part; eauto.
  - apply KT_unresolved; assumption.
  - eapply KT_not_tuple; eassumption.
  - eapply KT_number; eassumption.
  - eapply KT_tuple; eauto.
  - eapply KT_tuple_bad; eauto.
  - eapply KT_tuple_unused; eauto.
Qed.

Lemma gives_entry value entry : is_bytes value -> entry_usable types entry ->
  entry_told blake2_128 twox_64 types key value entry (storage_entry blake2_128 twox_64 types key value entry).
Proof.
  intros Hval Hu. pose proof (storage_answer blake2_128 twox_64 types key value entry Hkey) as H. unfold entry_usable in Hu.
  assert (Hw : forall vt, usable types vt -> (forall x, decode_all types value vt = Ok x -> whole_reading types value vt (inl x)) /\
     forall y, decode_all types value vt = Err y -> whole_reading types value vt (inr y)).
  { intros vt Hvt. pose proof (gives_whole types value Hval vt Hvt) as Hg. split; intros z Hz; rewrite Hz in Hg; exact Hg. }
  destruct H as [H|vt H1 H2|vt y H1 H2 H3|vt x H1 H2 H3|hs kt vt y H1 H2 H3|hs kt vt k y H1 H2 H3 H4|hs kt vt k x H1 H2 H3 H4]; try rewrite H2 in Hu.
  - apply ET_short, H.
  - exact (ET_exceeds _ _ _ _ _ _ _ H1 H2).
  - exact (ET_plain_bad _ _ _ _ _ _ _ _ H1 H2 (proj2 (Hw _ Hu) _ H3)).
  - exact (ET_plain _ _ _ _ _ _ _ _ H1 H2 (proj1 (Hw _ Hu) _ H3)).
  - exact (ET_key_bad _ _ _ _ _ _ _ _ _ _ H1 H2 (gives_key _ _ _ _ (proj2 Hu) H1 H3)).
  - exact (ET_value_bad _ _ _ _ _ _ _ _ _ _ _ H1 H2 (gives_key _ _ _ _ (proj2 Hu) H1 H3) (proj2 (Hw _ (proj1 Hu)) _ H4)).
  - exact (ET_map _ _ _ _ _ _ _ _ _ _ _ H1 H2 (gives_key _ _ _ _ (proj2 Hu) H1 H3) (proj1 (Hw _ (proj1 Hu)) _ H4)).
Qed.
End GivesStorage.

(** ** The runtime version *)

Lemma version_as_answered types pallets : version_usable types pallets -> forall r, version_told types pallets r <-> version_answer types pallets r.
Proof.
  intros Hu r.
  assert (Hw : forall p value id, system_pallet pallets p -> version_in p value id ->
     (forall x, decode_all types value id = Ok x <-> whole_reading types value id (inl x)) /\
     forall y, decode_all types value id = Err y <-> whole_reading types value id (inr y)).
  { intros p value id Hp Hv. destruct (Hu _ _ _ Hp Hv) as [Hid Hb]. pose proof (gives_whole types value Hb id Hid) as Hg.
    split; intros z; (split; [intros Hz; rewrite Hz in Hg; exact Hg|]); intros Hz;
      destruct (decode_all types value id); try contradiction; pose proof (whole_unique _ _ _ _ _ Hg Hz); congruence. }
  split; intros H; destruct H as [H|p H1 H2|p value id y H1 H2 H3|p value id x H1 H2 H3 H4|p value id x l r H1 H2 H3 H4 H5].
  - apply VA_no_system, H.
  - exact (VA_no_constant _ _ _ H1 H2).
  - exact (VA_not_decodable _ _ _ _ _ _ H1 H2 (proj2 (proj2 (Hw _ _ _ H1 H2) _) H3)).
  - exact (VA_format _ _ _ _ _ _ H1 H2 (proj2 (proj1 (Hw _ _ _ H1 H2) _) H3) H4).
  - exact (VA_fields _ _ _ _ _ _ _ _ H1 H2 (proj2 (proj1 (Hw _ _ _ H1 H2) _) H3) H4 H5).
  - apply VT_no_system, H.
  - exact (VT_no_constant _ _ _ H1 H2).
  - exact (VT_fault _ _ _ _ _ _ H1 H2 (proj1 (proj2 (Hw _ _ _ H1 H2) _) H3)).
  - exact (VT_format _ _ _ _ _ _ H1 H2 (proj1 (proj1 (Hw _ _ _ H1 H2) _) H3) H4).
  - exact (VT_fields _ _ _ _ _ _ _ _ H1 H2 (proj1 (proj1 (Hw _ _ _ H1 H2) _) H3) H4 H5).
Qed.
