(** C47, C48: from values to calls of the API. *)
From Coq Require Import Lia.
From Verif Require Import Base Compact Types Indicators Decode Sign Balance Cards Spec SpecBalance SpecCards SpecSign SpecSee
  ProofBase ProofLeaf ProofRead ProofMain ProofCor ProofSign ProofSign2 ProofCards ProofCards2 ProofShow ProofSee Api ApiSign.
Local Open Scope string_scope.
Local Open Scope list_scope.

Lemma has_join data p a b : has data p a -> has data (p + List.length a) b -> has data p (a ++ b).
Proof. intros Ha Hb. apply has_app. auto. Qed.

Lemma has_whole data bs : has data 0 bs -> List.length bs = List.length data -> data = bs.
Proof. unfold has, slice. rewrite skipn_O. intros H E. rewrite E, firstn_all in H. exact H. Qed.

Lemma one_line_split a : forall b x y, one_line a -> one_line b ->
  (a ++ newline ++ x = b ++ newline ++ y)%string -> a = b /\ x = y.
Proof.
  assert (G : forall s, one_line s -> without (ascii_of_nat 10) s = true).
  { induction s as [|c s IH]; intros H; [reflexivity|]. unfold one_line in *. cbn [list_ascii_of_string In without] in *.
    destruct (Ascii.eqb_spec (ascii_of_nat 10) c) as [E|E]; [exfalso; apply H; left; symmetry; exact E|].
    apply IH. intros K. apply H. right. exact K. }
  intros b x y Ha Hb E. apply (without_split (ascii_of_nat 10)); auto.
Qed.

Lemma one_line_no a b : one_line a -> a <> (b ++ newline)%string /\ forall x, a <> (b ++ newline ++ x)%string.
Proof.
  intros H. assert (G : forall b x, a <> (b ++ newline ++ x)%string).
  { intros b' x ->. apply H. clear H. induction b' as [|c b' IH]; [left; reflexivity|right; exact IH]. }
  split; [|apply G]. intros ->. apply (G b ""). reflexivity.
Qed.

Lemma join_inj : forall l1 l2, Forall one_line l1 -> Forall one_line l2 -> ~ In "" l1 -> ~ In "" l2 ->
  join newline l1 = join newline l2 -> l1 = l2.
Proof.
  induction l1 as [|a l1 IH]; intros [|b l2] O1 O2 N1 N2 E; [reflexivity| | |].
  - exfalso. apply N2. left. destruct l2; [exact (eq_sym E)|]. cbn [join] in E. destruct b; [reflexivity|discriminate E].
  - exfalso. apply N1. left. destruct l1; [exact E|]. cbn [join] in E. destruct a; [reflexivity|discriminate E].
  - inversion O1 as [|y l Oa Ol1]; subst. inversion O2 as [|y l Ob Ol2]; subst.
    destruct l1 as [|a' l1], l2 as [|b' l2].
    + cbn [join] in E. subst b. reflexivity.
    + exfalso. change (a = b ++ newline ++ join newline (b' :: l2))%string in E. destruct (one_line_no a b Oa) as [_ G]. exact (G _ E).
    + exfalso. change (a ++ newline ++ join newline (a' :: l1) = b)%string in E. destruct (one_line_no b a Ob) as [_ G]. exact (G _ (eq_sym E)).
    + change (a ++ newline ++ join newline (a' :: l1) = b ++ newline ++ join newline (b' :: l2))%string in E.
      apply one_line_split in E; [|exact Oa|exact Ob]. destruct E as [-> E]. f_equal. apply IH; auto.
      * intros H. apply N1. right. exact H.
      * intros H. apply N2. right. exact H.
Qed.

Lemma not_blank bits_string c : show bits_string c <> "".
Proof.
  destruct c as [cc cn ci]. destruct (show_text bits_string cc) as (text & Hp & Hs). rewrite Hs.
  intros E. assert (T : text = "").
  { revert E. generalize (blanks (2 * cn)). intros [|]; [auto|discriminate]. }
  subst text. unfold prints in Hp. destruct (kind bits_string cc) as [[label P]|].
  - destruct Hp as (p & _ & H). destruct label; discriminate H.
  - destruct cc; discriminate Hp.
Qed.

Lemma joined_lines bits_string l1 l2 :
  Forall (fun c => one_line (show bits_string c)) l1 -> Forall (fun c => one_line (show bits_string c)) l2 ->
  show_all bits_string l1 = show_all bits_string l2 -> map (show bits_string) l1 = map (show bits_string) l2.
Proof.
  intros O1 O2 E. apply join_inj; [rewrite Forall_map; assumption|rewrite Forall_map; assumption| | |exact E].
  - intros H. apply in_map_iff in H. destruct H as (c & H & _). exact (not_blank _ _ H).
  - intros H. apply in_map_iff in H. destruct H as (c & H & _). exact (not_blank _ _ H).
Qed.

Section See2.
Variable base58 : fixed_kind -> bytes -> N -> string.
Variable identicon : bytes -> bytes.
Variable specs : short_specs.
Variable name : string.
Variable bits_string : uwidth -> bit_order -> list bool -> string.
Variable types : list ty.
Hypothesis Hbase : base58_faithful base58.
Hypothesis Hbits : bits_faithful bits_string.
Hypothesis Hdec : (decimals specs < 256)%N.
Hypothesis Hapart : told_apart types.

Notation ext_lines x n db := (map (show bits_string) (card_ext base58 identicon specs name x n db)).

Lemma decoded_see h data1 data2 id p1 p2 x1 x2 q1 q2 n db r1 r2 : is_bytes data1 -> is_bytes data2 ->
  decode_hinted h types data1 id p1 = (Ok x1, q1) -> decode_hinted h types data2 id p2 = (Ok x2, q2) ->
  nothing_hidden (x_data x1) -> ext_lines x1 n db ++ r1 = ext_lines x2 n db ++ r2 ->
  exists bs, has data1 p1 bs /\ has data2 p2 bs /\ q1 = (p1 + List.length bs)%nat /\ q2 = (p2 + List.length bs)%nat /\ r1 = r2.
Proof.
  intros B1 B2 D1 D2 Hn E. apply hinted_sound in D1; [|exact B1]. apply hinted_sound in D2; [|exact B2].
  destruct D1 as (v1 & bs1 & E1 & V1 & _ & H1 & ->). destruct D2 as (v2 & bs2 & E2 & V2 & _ & H2 & ->).
  destruct (see_all base58 identicon specs name bits_string types Hbase Hbits Hdec Hapart v1 false false h id v2 bs1 bs2
              (x_data x1) (x_data x2) (x_info x1) (x_info x2) n db _ _ r1 r2 E1 E2 V1 V2
              (or_introl (ex_intro _ _ eq_refl)) (or_introl (ex_intro _ _ eq_refl)) Hn E) as [-> ->].
  exists bs2. repeat split; assumption.
Qed.

Theorem blob_see data1 data2 id x1 x2 n db : is_bytes data1 -> is_bytes data2 ->
  decode_all types data1 id = Ok x1 -> decode_all types data2 id = Ok x2 -> nothing_hidden (x_data x1) ->
  ext_lines x1 n db = ext_lines x2 n db -> data1 = data2.
Proof.
  intros B1 B2 D1 D2 Hn E.
  destruct (whole_blob_value types data1 id x1 B1 D1) as (v1 & E1 & V1).
  destruct (whole_blob_value types data2 id x2 B2 D2) as (v2 & E2 & V2).
  apply (f_equal (fun l => l ++ [])) in E.
  destruct (see_all base58 identicon specs name bits_string types Hbase Hbits Hdec Hapart v1 false false HNone id v2 _ _
              (x_data x1) (x_data x2) (x_info x1) (x_info x2) n db _ _ [] [] E1 E2 V1 V2
              (or_introl (ex_intro _ _ eq_refl)) (or_introl (ex_intro _ _ eq_refl)) Hn E) as [-> _]. reflexivity.
Qed.

Theorem slice_see data1 data2 id p1 p2 x1 x2 q1 q2 n db more1 more2 : is_bytes data1 -> is_bytes data2 ->
  decode_at types data1 id p1 = (Ok x1, q1) -> decode_at types data2 id p2 = (Ok x2, q2) ->
  nothing_hidden (x_data x1) -> ext_lines x1 n db ++ more1 = ext_lines x2 n db ++ more2 ->
  slice data1 p1 (q1 - p1) = slice data2 p2 (q2 - p2) /\ (q1 - p1 = q2 - p2)%nat /\ more1 = more2.
Proof.
  intros B1 B2 D1 D2 Hn E. rewrite decode_at_hinted in D1, D2.
  destruct (decoded_see HNone data1 data2 id p1 p2 x1 x2 q1 q2 n db more1 more2 B1 B2 D1 D2 Hn E) as (bs & H1 & H2 & -> & -> & ->).
  replace (p1 + List.length bs - p1)%nat with (List.length bs) by lia.
  replace (p2 + List.length bs - p2)%nat with (List.length bs) by lia. unfold has in *. rewrite H1, H2. auto.
Qed.

Lemma extensions_see data1 data2 l : is_bytes data1 -> is_bytes data2 -> forall p1 p2 xs1 xs2 q1 q2 r1 r2,
  read_in_turn types data1 l p1 xs1 q1 -> read_in_turn types data2 l p2 xs2 q2 ->
  Forall (fun x => nothing_hidden (x_data x)) xs1 ->
  map (show bits_string) (flat_map (fun x => card_ext base58 identicon specs name x 0 true) xs1) ++ r1 =
  map (show bits_string) (flat_map (fun x => card_ext base58 identicon specs name x 0 true) xs2) ++ r2 ->
  exists bs, has data1 p1 bs /\ has data2 p2 bs /\ q1 = (p1 + List.length bs)%nat /\ q2 = (p2 + List.length bs)%nat /\ r1 = r2.
Proof.
  intros B1 B2. induction l as [|[i id] l IH]; intros p1 p2 xs1 xs2 q1 q2 r1 r2 R1 R2 Hn E.
  - inversion R1; inversion R2; subst. exists []. cbn [flat_map map app List.length] in *. rewrite !Nat.add_0_r.
    repeat split; auto.
  - inversion R1 as [|i1 id1 l1 a1 x1 b1 ys1 c1 D1 T1]; subst. inversion R2 as [|i2 id2 l2 a2 x2 b2 ys2 c2 D2 T2]; subst.
    inversion Hn as [|y ys Hx Hxs]; subst. cbn [flat_map] in E. rewrite !map_app, <- !app_assoc in E.
    destruct (decoded_see _ _ _ _ _ _ _ _ _ _ _ _ _ _ B1 B2 D1 D2 Hx E) as (bs & H1 & H2 & -> & -> & E').
    destruct (IH _ _ _ _ _ _ _ _ T1 T2 Hxs E') as (bs' & H1' & H2' & -> & -> & ->).
    exists (bs ++ bs'). rewrite app_length, !Nat.add_assoc. repeat split; try (apply has_join; assumption); reflexivity.
Qed.

End See2.

Section Transactions.
Context {ME : Type}.
Variable c : ApiSign.chain ME.
Variable base58 : fixed_kind -> bytes -> N -> string.
Variable identicon : bytes -> bytes.
Variable specs : short_specs.
Variable name : string.
Variable bits_string : uwidth -> bit_order -> list bool -> string.
Hypothesis Hbase : base58_faithful base58.
Hypothesis Hbits : bits_faithful bits_string.
Hypothesis Hdec : (decimals specs < 256)%N.
Hypothesis Hapart : told_apart (ch_types c).

Notation call_lines call := (map (show bits_string) (card_call base58 identicon specs name call 0)).
Notation extension_lines xs := (map (show bits_string) (card_extensions base58 identicon specs name xs)).

Lemma call_ext x call n : x_data x = DCall call ->
  map (show bits_string) (card_call base58 identicon specs name call n) =
  map (show bits_string) (card_ext base58 identicon specs name x n true).
Proof.
  intros E. destruct x as [xd xi]. cbn [x_data] in E. subst xd. reflexivity.
Qed.

(** Also the place where the call ends. *)
Theorem unmarked_see g1 g2 data1 data2 call1 call2 xs1 xs2 : is_bytes data1 -> is_bytes data2 ->
  transaction_unmarked c g1 data1 = Ok (call1, xs1) -> transaction_unmarked c g2 data2 = Ok (call2, xs2) ->
  nothing_hidden (DCall call1) -> Forall (fun x => nothing_hidden (x_data x)) xs1 ->
  call_lines call1 ++ extension_lines xs1 = call_lines call2 ++ extension_lines xs2 ->
  data1 = data2.
Proof.
  intros B1 B2 T1 T2 N1 Ns E.
  apply unmarked_matches in T1, T2. destruct T1 as (id1 & x1 & q1 & C1 & D1 & X1 & M1).
  destruct T2 as (id2 & x2 & q2 & C2 & D2 & X2 & M2). rewrite C1 in C2. injection C2 as <-.
  rewrite (call_ext x1 call1 0 X1), (call_ext x2 call2 0 X2) in E. rewrite <- X1 in N1.
  rewrite decode_at_hinted in D1, D2.
  destruct (decoded_see base58 identicon specs name bits_string (ch_types c) Hbase Hbits Hdec Hapart
              _ _ _ _ _ _ _ _ _ _ _ _ _ _ B1 B2 D1 D2 N1 E) as (bs & H1 & H2 & -> & -> & E').
  destruct M1 as (l1 & nv1 & v1 & g1' & L1 & _ & R1 & _). destruct M2 as (l2 & nv2 & v2 & g2' & L2 & _ & R2 & _).
  rewrite L1 in L2. injection L2 as <-. rewrite !extensions_concat in E'.
  apply (f_equal (fun l => l ++ [])) in E'.
  destruct (extensions_see base58 identicon specs name bits_string (ch_types c) Hbase Hbits Hdec Hapart
              data1 data2 _ B1 B2 _ _ _ _ _ _ [] [] R1 R2 Ns E') as (bs' & H1' & H2' & Q1 & Q2 & _).
  transitivity (bs ++ bs'); [|symmetry]; (apply has_whole; [apply has_join; assumption|rewrite app_length; lia]).
Qed.

Lemma transaction_split g data call xs : is_bytes data -> transaction c g data = Ok (TransactionParsed (inl call) xs) ->
  exists cb eb, fits U32 (N.of_nat (List.length cb)) = true /\ is_bytes (cb ++ eb) /\
    data = compact_enc (N.of_nat (List.length cb)) ++ cb ++ eb.
Proof.
  intros B T. destruct (transaction_matches c g data _ B T) as (mk & Hm & _).
  destruct (@mark_spec ME _ B) as [(n & cb & eb & Hf & E & Hn & _)|[_ Hm']]; [|congruence].
  exists cb, eb. subst n data. split; [exact Hf|]. split; [|reflexivity]. apply is_bytes_app in B. apply B.
Qed.

Theorem transaction_see g1 g2 data1 data2 call1 call2 xs1 xs2 : is_bytes data1 -> is_bytes data2 ->
  transaction c g1 data1 = Ok (TransactionParsed (inl call1) xs1) ->
  transaction c g2 data2 = Ok (TransactionParsed (inl call2) xs2) ->
  nothing_hidden (DCall call1) -> Forall (fun x => nothing_hidden (x_data x)) xs1 ->
  call_lines call1 ++ extension_lines xs1 = call_lines call2 ++ extension_lines xs2 ->
  data1 = data2.
Proof.
  intros B1 B2 T1 T2 N1 Ns E.
  destruct (transaction_split _ _ _ _ B1 T1) as (cb1 & eb1 & F1 & C1 & ->).
  destruct (transaction_split _ _ _ _ B2 T2) as (cb2 & eb2 & F2 & C2 & ->).
  apply (marked_unmarked c) in T1; [|exact F1|exact C1]. apply (marked_unmarked c) in T2; [|exact F2|exact C2].
  destruct T1 as (T1 & id1 & x1 & I1 & D1). destruct T2 as (T2 & id2 & x2 & I2 & D2).
  pose proof (unmarked_see _ _ _ _ _ _ _ _ C1 C2 T1 T2 N1 Ns E) as Eq.
  rewrite I1 in I2. injection I2 as <-. rewrite Eq in D1. rewrite D1 in D2. injection D2 as _ D2.
  rewrite D2, Eq. reflexivity.
Qed.

End Transactions.
