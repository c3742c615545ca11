(** C82: the lines printed for a storage entry, parts of the key and value one after the other,
    determine the entry, for any metadata. *)
From Coq Require Import Lia ZifyN.
From Verif Require Import Base Compact Types Indicators Decode Sign Storage Balance Cards Spec SpecCards SpecSign SpecStorage
  SpecSee ProofBase ProofStorage ProofSee ProofSee2 PropSee PropBytes Api ApiStorage.
From Verif Require PropFault PropAddress Address Blake2b Twox Sample PropStorage PropTransferReal PropAccount
  TestWestend TestPolkadot9430 TestPolkadot15 TestUnchecked15 TestAstar TestBifrost TestStatemint TestAcala2012 TestAcala2200.
Local Open Scope list_scope.

Section Lines.
Variable base58 : fixed_kind -> bytes -> N -> string.
Variable identicon : bytes -> bytes.
Variable specs : short_specs.
Variable name : string.
Variable bits : uwidth -> bit_order -> list bool -> string.

Definition value_lines (x : ext pdata) : list string := map (show bits) (card_ext base58 identicon specs name x 0 true).

(** What was decoded, as its cards; a bare hash in hexadecimal. *)
Definition part_lines (p : key_part) : list string :=
  match p with
  | KParsed x => value_lines x
  | KHash _ h _ => [hex_encode h]
  end.

Definition key_lines (k : key_data) : list string :=
  match k with
  | KPlain => []
  | KSingle p => part_lines p
  | KTuple l _ => flat_map part_lines l
  end.

Definition entry_lines (s : storage) : list string := key_lines (st_key s) ++ value_lines (st_value s).

Hypothesis F1 : base58_faithful base58.
Hypothesis F2 : bits_faithful bits.
Hypothesis Hdec : (decimals specs < 256)%N.

Section See.
Variable types : list ty.
Hypothesis apart : told_apart types.

Lemma encodes_seen id bs1 bs2 x1 x2 m1 m2 : encodes types id bs1 x1 -> encodes types id bs2 x2 -> nothing_hidden (x_data x1) ->
  value_lines x1 ++ m1 = value_lines x2 ++ m2 -> bs1 = bs2 /\ x1 = x2 /\ m1 = m2.
Proof.
  intros (v1 & E1 & V1) (v2 & E2 & V2) Hn E.
  destruct (see_all base58 identicon specs name bits types F1 F2
    Hdec apart v1 false false HNone id v2 bs1 bs2 (x_data x1) (x_data x2) (x_info x1) (x_info x2) 0 true _ _ m1 m2
    E1 E2 V1 V2 (or_introl (ex_intro _ _ eq_refl)) (or_introl (ex_intro _ _ eq_refl)) Hn E) as [H M].
  split; [exact H|]. split; [|exact M]. subst bs2.
  destruct (PropFault.c08_one_value types false id v1 v2 bs1 bs1 [] [] E1 E2 eq_refl) as [-> _].
  rewrite V1 in V2. injection V2 as A B. destruct x1, x2. cbn in A, B. congruence.
Qed.

Variables blake2_128 twox_64 : bytes -> bytes.

Lemma piece_seen h id bs1 bs2 p1 p2 m1 m2 : piece blake2_128 twox_64 types h id bs1 p1 -> piece blake2_128 twox_64 types h id bs2 p2 ->
  is_bytes bs1 -> is_bytes bs2 -> part_in_full p1 -> part_lines p1 ++ m1 = part_lines p2 ++ m2 -> bs1 = bs2 /\ p1 = p2 /\ m1 = m2.
Proof.
  intros H1 H2 B1 B2 Hn E.
  destruct H1 as [k n bs O1 L1|f n content x C1 L1 X1|bs x I1 X1]; destruct H2 as [k' n' bs' O2 L2|f' n' content' x' C2 L2 X2|bs' x' I2 X2];
    cbn [part_lines part_in_full] in *.
  - cbn [app] in E. injection E as E M. apply hex_inj in E; [|exact B1|exact B2]. assert (k = k') by congruence. subst. auto.
  - destruct h; discriminate.
  - subst h. discriminate O1.
  - destruct h; discriminate.
  - destruct (encodes_seen _ _ _ _ _ _ _ X1 X2 Hn E) as (-> & -> & ->). assert (f = f') by congruence. subst. auto.
  - subst h. discriminate C1.
  - subst h. discriminate O2.
  - subst h. discriminate C2.
  - destruct (encodes_seen _ _ _ _ _ _ _ X1 X2 Hn E) as (-> & -> & ->). auto.
Qed.

Lemma pieces_seen hs : forall ids l1 l2 xs1 xs2 m1 m2,
  pieces blake2_128 twox_64 types hs ids l1 xs1 -> pieces blake2_128 twox_64 types hs ids l2 xs2 ->
  is_bytes (List.concat l1) -> is_bytes (List.concat l2) -> Forall part_in_full xs1 ->
  flat_map part_lines xs1 ++ m1 = flat_map part_lines xs2 ++ m2 -> l1 = l2 /\ xs1 = xs2 /\ m1 = m2.
Proof.
  induction hs as [|h hs IH]; intros ids l1 l2 xs1 xs2 m1 m2 H1 H2 B1 B2 Hn E.
  - inversion H1; subst. inversion H2; subst. auto.
  - inversion H1 as [|h' id bs1 x hs' ids' r1 xs' P1 R1]; subst. inversion H2 as [|h' id' bs2 x' hs' ids'' r2 xs'' P2 R2]; subst.
    inversion Hn as [|? ? N1 N2]; subst. cbn [List.concat flat_map] in *. apply is_bytes_app in B1, B2. rewrite <- !app_assoc in E.
    destruct (piece_seen _ _ _ _ _ _ _ _ P1 P2 (proj1 B1) (proj1 B2) N1 E) as (-> & -> & E').
    destruct (IH _ _ _ _ _ _ _ R1 R2 (proj2 B1) (proj2 B2) N2 E') as (-> & -> & ->). auto.
Qed.

Lemma map_key_seen hs kt rest1 rest2 k1 k2 m1 m2 :
  map_key blake2_128 twox_64 types hs kt rest1 k1 -> map_key blake2_128 twox_64 types hs kt rest2 k2 ->
  is_bytes rest1 -> is_bytes rest2 -> key_in_full k1 -> key_lines k1 ++ m1 = key_lines k2 ++ m2 -> rest1 = rest2 /\ k1 = k2 /\ m1 = m2.
Proof.
  intros H1 H2 B1 B2 Hn E.
  destruct H1 as [h1 bs1 x1 S1 P1|t1 ids1 l1 xs1 S1 T1 D1 P1]; destruct H2 as [h2 bs2 x2 S2 P2|t2 ids2 l2 xs2 S2 T2 D2 P2].
  - assert (h1 = h2) as -> by congruence. destruct (piece_seen _ _ _ _ _ _ _ _ P1 P2 B1 B2 Hn E) as (-> & -> & ->). auto.
  - exfalso. apply S2. rewrite S1. reflexivity.
  - exfalso. apply S1. rewrite S2. reflexivity.
  - assert (t1 = t2) as -> by congruence. assert (ids1 = ids2) as -> by congruence.
    destruct (pieces_seen _ _ _ _ _ _ _ _ P1 P2 B1 B2 Hn E) as (-> & -> & ->). auto.
Qed.
End See.
End Lines.

(** Entries printed alike are the same: the key after the 32 bytes of the prefix, which is not
    looked at, the value, and everything that was parsed. *)
Theorem c82_lines : forall blake2_128 twox_64 types entry base58 identicon specs name bits key1 key2 value1 value2 s1 s2,
  told_apart types -> base58_faithful base58 -> bits_faithful bits -> (decimals specs < 256)%N ->
  is_bytes key1 -> is_bytes key2 -> is_bytes value1 -> is_bytes value2 ->
  storage_entry blake2_128 twox_64 types key1 value1 entry = Ok s1 ->
  storage_entry blake2_128 twox_64 types key2 value2 entry = Ok s2 ->
  key_in_full (st_key s1) -> nothing_hidden (x_data (st_value s1)) ->
  entry_lines base58 identicon specs name bits s1 = entry_lines base58 identicon specs name bits s2 ->
  skipn 32 key1 = skipn 32 key2 /\ value1 = value2 /\ s1 = s2.
Proof.
  intros b1 t1 types entry base58 icon specs name bits key1 key2 value1 value2 s1 s2 Ha F1 F2 Hd K1 K2 B1 B2 S1 S2 Nk Nv E.
  apply storage_sound in S1; [|exact K1|exact B1]. apply storage_sound in S2; [|exact K2|exact B2].
  destruct S1 as [S1 O1], S2 as [S2 O2]. destruct s1 as [k1 x1 d1], s2 as [k2 x2 d2]. unfold entry_lines in E. cbn [st_key st_value st_docs] in *.
  destruct S1 as [vt x1 L1 E1|hs kt vt pre1 rest1 k1 x1 L1 P1 M1 E1].
  - inversion S2 as [vt2 x2' L2 E2|]; subst. cbn [key_lines app] in E. 
    apply (f_equal (fun l => l ++ [])) in E.
    destruct (encodes_seen base58 icon specs name bits F1 F2 Hd types Ha _ _ _ _ _ _ _ E1 E2 Nv E) as (-> & -> & _).
    rewrite !skipn_all2 by lia. auto.
  - inversion S2 as [|hs2 kt2 vt2 pre2 rest2 k2' x2' L2 P2 M2 E2]; subst. 
    apply is_bytes_app in K1, K2.
    destruct (map_key_seen base58 icon specs name bits F1 F2 Hd types Ha b1 t1 _ _ _ _ _ _ _ _ M1 M2 (proj2 K1) (proj2 K2) Nk E) as (-> & -> & E').
    apply (f_equal (fun l => l ++ [])) in E'.
    destruct (encodes_seen base58 icon specs name bits F1 F2 Hd types Ha _ _ _ _ _ _ _ E1 E2 Nv E') as (-> & -> & _).
    split; [|auto]. rewrite <- P1 at 1. rewrite <- P2. rewrite !skipn_app_exact. reflexivity.
Qed.
Print Assumptions c82_lines.

(** On the chains whose metadata are in the repository, with the actual hash functions, address
    format and bit strings: for any storage entry, whatever its hashers and types. *)
Definition entries_told (types : list ty) : Prop := forall entry identicon specs name key1 key2 value1 value2 s1 s2,
  (decimals specs < 256)%N -> is_bytes key1 -> is_bytes key2 -> is_bytes value1 -> is_bytes value2 ->
  storage_entry Blake2b.blake2_128 Twox.twox_64 types key1 value1 entry = Ok s1 ->
  storage_entry Blake2b.blake2_128 Twox.twox_64 types key2 value2 entry = Ok s2 ->
  key_in_full (st_key s1) -> nothing_hidden (x_data (st_value s1)) ->
  entry_lines Address.address identicon specs name Address.bits_text s1 = entry_lines Address.address identicon specs name Address.bits_text s2 ->
  skipn 32 key1 = skipn 32 key2 /\ value1 = value2 /\ s1 = s2.

Theorem c82_real : Forall entries_told [TestWestend.md_types; TestPolkadot9430.md_types; TestPolkadot15.md_types; TestUnchecked15.md_types;
  TestAstar.md_types; TestBifrost.md_types; TestStatemint.md_types; TestAcala2012.md_types; TestAcala2200.md_types].
Proof.
  assert (H : forall types, told_apart types -> entries_told types).
  { intros types Ha entry icon specs name key1 key2 value1 value2 s1 s2 Hd K1 K2 B1 B2 S1 S2 Nk Nv E.
    destruct PropAddress.c67_formats as [F1 F2].
    exact (c82_lines _ _ types entry _ icon specs name _ key1 key2 value1 value2 s1 s2 Ha F1 F2 Hd K1 K2 B1 B2 S1 S2 Nk Nv E). }
  repeat (constructor; [apply H|]); [apply PropSee.westend_told_apart|apply PropTransferReal.polkadot9430_apart|apply PropTransferReal.polkadot15_apart|
    apply PropTransferReal.polkadot1003003_apart|apply PropTransferReal.astar_apart|apply PropTransferReal.bifrost_apart|apply PropSee.statemint_told_apart|
    apply PropAccount.acala2012_apart|apply PropAccount.acala2200_apart|constructor].
Qed.
Print Assumptions c82_real.

(** The hypotheses can be met: three parts, one of them a bare hash, and a value. *)
Example c82_case : told_apart PropStorage.storage_types /\
  exists s, storage_entry (PropStorage.fake 16) (PropStorage.fake 8) PropStorage.storage_types PropStorage.tuple_key [9; 0; 0; 0]%N PropStorage.tuple_entry = Ok s /\
    key_in_full (st_key s) /\ nothing_hidden (x_data (st_value s)) /\
    entry_lines Address.address (fun b => b) unit_specs "" Address.bits_text s =
      ["u32: 5"; "c8eeeeeeeeeeeeeeeeeeeeeeeeeeeeeeeeeeeeeeeeeeeeeeeeeeeeeeeeeeeeee"; "u32: 513"; "u32: 9"]%string.
Proof.
  destruct c56_storage_case as (Ha & s & S & Nk & Nv). split; [exact Ha|]. exists s. split; [exact S|]. split; [exact Nk|]. split; [exact Nv|].
  destruct PropStorage.c27_example as [E _]. unfold PropStorage.stored in E. rewrite S in E. injection E as ->. vm_compute. reflexivity.
Qed.
