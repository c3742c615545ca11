(** Storage keys from any position (C58). *)
From Coq Require Import Lia ZifyBool ZifyNat ZifyN.
From Verif Require Import Base Compact Types Indicators Decode Sign Storage Spec SpecSource SpecTrack SpecSign SpecStorage SpecKey
  Api ApiStorage ProofBase ProofTables ProofPeel ProofSpec ProofSafe ProofSafe2 ProofFuel ProofTrack ProofIso ProofSign2 ProofCor ProofStorage.
Local Open Scope list_scope.

Definition shift_storage (k : nat) (x : storage_err) : storage_err :=
  match x with ParsingKey y => ParsingKey (shift_err k y) | y => y end.

Section Shift.
Variable types : list ty.
Variable blake2_128 twox_64 : bytes -> bytes.
Variables pre key : bytes.
Local Notation k := (List.length pre).
Local Notation b1 := (@slice_buffer unit key).
Local Notation b2 := (@slice_buffer unit (pre ++ key)).
Local Notation reg := (@portable unit types).
Definition no_ext (_ : storage_err) : Prop := True.
Local Notation trs := (trk k 0 False no_ext (shift_storage k) eq).

Lemma shifted_key : same_reads k 0 b1 b2.
Proof. exact (shifted_reads [] pre key k eq_refl). Qed.

Lemma shift_type id P : cycle_check (checker_of P) = [] ->
  trk k 0 False pext (shift_err k) eq (decode_with_type b1 reg (Symbol id) P) (decode_with_type b2 reg (Symbol id) P).
Proof. intros Hc. apply trk_shifted; auto using shifted_key, good_slice. Qed.

Lemma trs_type id P : cycle_check (checker_of P) = [] ->
  trs (map_err ParsingKey (decode_with_type b1 reg (Symbol id) P)) (map_err ParsingKey (decode_with_type b2 reg (Symbol id) P)).
Proof. intros Hc. eapply trk_map_err; [apply shift_type, Hc|intros; exact I|reflexivity]. Qed.

Lemma trs_slice p n : trs (map_err ParsingKey (read_slice b1 p n)) (map_err ParsingKey (read_slice b2 (p + k) n)).
Proof.
  intros q [] [] Hq. unfold map_err, read_slice, tracked. pose proof (proj2 shifted_key p n (Nat.le_0_l _)) as H.
  destruct (rd b1 p n tt) as [o1 e3], (rd b2 (p + k) n tt) as [o2 e4]. cbn [fst] in H. subst o2.
  destruct o1; right; [repeat split; lia|reflexivity].
Qed.

Lemma trs_cut len h id : trs (cut_hash len h id b1) (cut_hash len h id b2).
Proof.
  unfold cut_hash. eapply trk_bind; [apply trk_get|]. intros p p2 [-> Hp].
  eapply trk_bind; [apply trs_slice|]. intros l ? <-. destruct (_ =? _)%N; [|apply trk_panic].
  eapply trk_bind with (R := eq); [apply trk_set; split; lia|]. intros _ _ _. apply trk_ret. reflexivity.
Qed.

Lemma trs_check len h id : trs (check_hash len h id b1 reg) (check_hash len h id b2 reg).
Proof.
  unfold check_hash. eapply trk_bind; [apply trk_get|]. intros p p2 [-> Hp].
  eapply trk_bind; [apply trs_slice|]. intros l ? <-. destruct (_ =? _)%N; [|apply trk_panic]. cbv zeta.
  eapply trk_bind with (R := eq); [apply trk_set; split; lia|]. intros _ _ _.
  eapply trk_bind; [apply trs_type; reflexivity|]. intros x ? <-.
  eapply trk_bind; [apply trk_get|]. intros q q2 [-> Hq].
  intros s [] [] Hs. unfold bind, catch, read_slice, tracked.
  replace (q + k - (p + k + N.to_nat len))%nat with (q - (p + N.to_nat len))%nat by lia.
  replace (p + k + N.to_nat len)%nat with (p + N.to_nat len + k)%nat by lia.
  pose proof (proj2 shifted_key (p + N.to_nat len)%nat (N.of_nat (q - (p + N.to_nat len))) (Nat.le_0_l _)) as H.
  destruct (rd b1 _ _ tt) as [o1 e3], (rd b2 _ _ tt) as [o2 e4]. cbn [fst] in H. subst o2. destruct o1 as [y|y].
  - destruct (bytes_eqb l (h y)); right; cbn; auto.
  - right. exact I.
Qed.

Lemma trs_part h id : trs (key_part_decode blake2_128 twox_64 h id b1 reg) (key_part_decode blake2_128 twox_64 h id b2 reg).
Proof.
  destruct h; cbn [key_part_decode]; try apply trs_cut; try apply trs_check.
  eapply trk_bind; [apply trs_type; reflexivity|]. intros x ? <-. apply trk_ret. reflexivity.
Qed.

Lemma trs_parts hs : forall ids, trs (key_parts blake2_128 twox_64 hs ids b1 reg) (key_parts blake2_128 twox_64 hs ids b2 reg).
Proof.
  induction hs as [|h hs IH]; intros [|id ids]; cbn [key_parts]; try (apply trk_ret; reflexivity).
  eapply trk_bind; [apply trs_part|]. intros x ? <-. eapply trk_bind; [apply IH|]. intros l ? <-. apply trk_ret. reflexivity.
Qed.

Lemma trs_body hs id : trs (process_key_body blake2_128 twox_64 hs id b1 reg) (process_key_body blake2_128 twox_64 hs id b2 reg).
Proof.
  unfold process_key_body. eapply trk_bind with (R := eq).
  - assert (Hmany : trs (tuple_body blake2_128 twox_64 types hs id key) (tuple_body blake2_128 twox_64 types hs id (pre ++ key))).
    { unfold tuple_body. eapply trk_bind with (R := eq).
      - intros p [] [] Hp. unfold map_err, resolve_ty. cbn [resolve portable]. unfold portable_resolve. destruct (lookup types id); right; cbn; auto.
      - intros t ? <-. destruct (t_def t); try (apply trk_fail; reflexivity).
        destruct (Nat.eqb _ _); [|apply trk_fail; reflexivity]. eapply trk_bind; [apply trs_parts|]. intros l ? <-. apply trk_ret. reflexivity. }
    destruct hs as [|h [|h2 hs]]; try exact Hmany.
    eapply trk_bind; [apply trs_part|]. intros x ? <-. apply trk_ret. reflexivity.
  - intros x ? <-. eapply trk_bind; [apply trk_get|]. intros p p2 [-> Hp]. cbn [total_len slice_buffer]. rewrite app_length.
    replace (Nat.eqb (p + k) (k + List.length key)) with (Nat.eqb p (List.length key)) by (destruct (Nat.eqb p _) eqn:H; lia).
    destruct (Nat.eqb _ _); [apply trk_ret|apply trk_fail]; reflexivity.
Qed.

Theorem key_moved hs kt start :
  process_key blake2_128 twox_64 types hs kt (pre ++ key) (k + start) =
  move_storage k (process_key blake2_128 twox_64 types hs kt key start).
Proof.
  unfold process_key, process_key_mapped, bind, at_local. pose proof (trs_body hs kt start tt tt (Nat.le_0_l _)) as H.
  rewrite (Nat.add_comm k start). unfold tracked in H.
  destruct (process_key_body _ _ hs kt b1 reg start tt) as [[o1 q1] e1], (process_key_body _ _ hs kt b2 reg (start + k)%nat tt) as [[o2 q2] e2].
  destruct H as [[[] _]|H]. destruct o1 as [a|x| |], o2 as [a'|y| |]; try contradiction; try reflexivity.
  - destruct H as (-> & _). reflexivity.
  - subst y. cbn [fst move_storage]. destruct x; reflexivity.
Qed.

Theorem decode_moved id p :
  fst (decode_at types (pre ++ key) id (k + p)) = move_parsed k (fst (decode_at types key id p)) /\
  forall x q, decode_at types key id p = (Ok x, q) -> decode_at types (pre ++ key) id (k + p) = (Ok x, (k + q)%nat).
Proof.
  unfold decode_at, decode_as_type_at_position. pose proof (shift_type id propagated_new eq_refl p tt tt (Nat.le_0_l _)) as H.
  rewrite (Nat.add_comm k p). unfold tracked in H.
  destruct (decode_with_type b1 _ _ _ p tt) as [[o1 q1] e1], (decode_with_type b2 _ _ _ (p + k)%nat tt) as [[o2 q2] e2].
  destruct H as [[[] _]|H]. cbn [fst]. destruct o1 as [a|x| |], o2 as [a'|y| |]; try contradiction; split; try reflexivity; try discriminate.
  - destruct H as (-> & _). reflexivity.
  - intros x q Hx. destruct H as (-> & -> & _). injection Hx as -> ->. f_equal. apply Nat.add_comm.
  - subst y. cbn [move_parsed]. reflexivity.
Qed.
End Shift.

(** *** From a position beyond the end *)

Section Beyond.
Variable types : list ty.
Variable blake2_128 twox_64 : bytes -> bytes.
Variables key : bytes.
Local Notation b := (@slice_buffer unit key).
Local Notation reg := (@portable unit types).

(** Whatever is accepted does not move the position back. *)
Lemma read_beyond p n q : (List.length key < p)%nat -> exists y, read_slice b p n q tt = (Err y, q, tt).
Proof.
  intros Hp. unfold read_slice. cbn [rd slice_buffer]. unfold slice_rd. destruct (List.length key <? p)%nat eqn:H; [eauto|lia].
Qed.

Definition stays {A} (m : M unit storage_err A) : Prop := forall p, (List.length key < p)%nat ->
  (exists a q, m p tt = (Ok a, q, tt) /\ (List.length key < q)%nat) \/ exists y q, m p tt = (Err y, q, tt).

Lemma stays_bind {A B} (m : M unit storage_err A) (f : A -> M unit storage_err B) :
  stays m -> (forall a, stays (f a)) -> stays (bind m f).
Proof.
  intros H1 H2 p Hp. unfold bind. destruct (H1 p Hp) as [(a & q & -> & Hq)|(y & q & ->)]; [apply H2, Hq|right; eauto].
Qed.
Lemma stays_ret {A} (a : A) : stays (ret a).
Proof. intros p Hp. left. exists a, p. split; [reflexivity|exact Hp]. Qed.
Lemma stays_fail {A} y : stays (@fail unit storage_err A y).
Proof. intros p Hp. right. exists y, p. reflexivity. Qed.

Hypothesis Hb : is_bytes key.

Lemma stays_type id : stays (map_err ParsingKey (decode_with_type b reg (Symbol id) propagated_new)).
Proof.
  intros p Hp. unfold map_err. destruct (decode_eq types key id p) as [[] H]. rewrite H.
  pose proof (decode_at_runs b reg (good_slice key) (good_portable types) id p tt) as Hr.
  unfold decode_as_type_at_position in Hr. rewrite H in Hr. apply runs_returns in Hr. cbn [fst] in Hr.
  destruct (decode_at types key id p) as [o q] eqn:Hd. cbn [fst] in Hr. destruct Hr as [(x & ->)|(y & ->)]; [|right; eauto].
  left. exists x, q. split; [reflexivity|]. rewrite decode_at_hinted in Hd. apply hinted_sound in Hd; [|exact Hb].
  destruct Hd as (v & bs & _ & _ & _ & _ & ->). lia.
Qed.

Lemma stays_read p n : (List.length key < p)%nat -> stays (map_err ParsingKey (read_slice b p n)).
Proof. intros Hp q Hq. unfold map_err. destruct (read_beyond p n q Hp) as [y ->]. right. eauto. Qed.

Lemma stays_part h id : stays (key_part_decode blake2_128 twox_64 h id b reg).
Proof.
  assert (Hcut : forall len o, stays (cut_hash len o id b)).
  { intros len o p Hp. unfold cut_hash, bind, get_pos, map_err. destruct (read_beyond p len p Hp) as [y ->]. right. eauto. }
  assert (Hcheck : forall len o, stays (check_hash len o id b reg)).
  { intros len o p Hp. unfold check_hash, bind, get_pos, map_err. destruct (read_beyond p len p Hp) as [y ->]. right. eauto. }
  destruct h; cbn [key_part_decode]; auto. apply stays_bind; [apply stays_type|]. intros x. apply stays_ret.
Qed.

Lemma stays_parts hs : forall ids, stays (key_parts blake2_128 twox_64 hs ids b reg).
Proof.
  induction hs as [|h hs IH]; intros [|id ids]; cbn [key_parts]; try apply stays_ret.
  apply stays_bind; [apply stays_part|]. intros x. apply stays_bind; [apply IH|]. intros l. apply stays_ret.
Qed.

Lemma key_beyond hs kt start : (List.length key < start)%nat ->
  exists y, process_key blake2_128 twox_64 types hs kt key start = Err y.
Proof.
  intros Hs. unfold process_key, process_key_mapped, at_local, process_key_body.
  assert (Hm : stays (match hs with
    | [h] => do x <- key_part_decode blake2_128 twox_64 h kt b reg; ret (KSingle x)
    | _ => tuple_body blake2_128 twox_64 types hs kt key
    end)).
  { assert (Ht : stays (tuple_body blake2_128 twox_64 types hs kt key)).
    { unfold tuple_body. apply stays_bind.
      - intros p Hp. unfold map_err, resolve_ty. cbn [resolve portable]. unfold portable_resolve. destruct (lookup types kt); eauto 6.
      - intros t. destruct (t_def t); try apply stays_fail. destruct (Nat.eqb _ _); [|apply stays_fail].
        apply stays_bind; [apply stays_parts|]. intros l. apply stays_ret. }
    destruct hs as [|h [|h2 hs]]; try exact Ht. apply stays_bind; [apply stays_part|]. intros x. apply stays_ret. }
  fold (tuple_body blake2_128 twox_64 types hs kt key).
  unfold bind at 1 2. destruct (Hm start Hs) as [(a & q & -> & Hq)|(y & q & ->)]; [|cbn [fst]; eauto].
  unfold bind, get_pos. cbn [total_len slice_buffer]. destruct (Nat.eqb q (List.length key)) eqn:H; [lia|]. cbn. eauto.
Qed.
End Beyond.

Theorem key_documented types blake2_128 twox_64 key hs kt start : is_bytes key -> (start <= List.length key)%nat ->
  exists r, key_answer blake2_128 twox_64 types key hs kt start r /\
    process_key blake2_128 twox_64 types hs kt key start = match r with inl k => Ok k | inr y => Err y end.
Proof.
  intros Hb Hs. destruct (key_ok blake2_128 twox_64 types key hs kt start 0 Hb Hs) as (r & Hr & H). exists r. split; [exact Hr|].
  unfold process_key. rewrite H. reflexivity.
Qed.

Theorem process_sound types blake2_128 twox_64 key hs kt start k : is_bytes key -> (start <= List.length key)%nat ->
  process_key blake2_128 twox_64 types hs kt key start = Ok k -> map_key blake2_128 twox_64 types hs kt (skipn start key) k.
Proof.
  intros Hb Hs H. destruct (key_documented types blake2_128 twox_64 key hs kt start Hb Hs) as ([x|y] & Hr & Ho); rewrite H in Ho; [|discriminate].
  injection Ho as <-. apply key_sound; auto.
Qed.

Theorem process_complete types blake2_128 twox_64 pre key hs kt k : acyclic types -> is_bytes (pre ++ key) ->
  map_key blake2_128 twox_64 types hs kt key k -> process_key blake2_128 twox_64 types hs kt (pre ++ key) (List.length pre) = Ok k.
Proof.
  intros Ha Hb H. destruct (key_documented types blake2_128 twox_64 (pre ++ key) hs kt (List.length pre) Hb) as (r & Hr & Ho); [rewrite app_length; lia|].
  pose proof (key_complete blake2_128 twox_64 types Ha hs kt pre key k Hb H) as Hk.
  rewrite (key_unique _ _ _ _ _ _ _ _ _ Hr Hk) in Ho. exact Ho.
Qed.
