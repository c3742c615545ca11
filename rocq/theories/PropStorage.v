(** C27-C29: storage entries.  Only statements; proofs in ProofStorage.v, specification in
    SpecStorage.v. *)
From Verif Require Import Base Compact Types Indicators Decode Storage Spec SpecWf SpecStorage Api ApiStorage ProofBase ProofWf ProofCor ProofStorage Sample.
Local Open Scope string_scope.
Local Open Scope list_scope.

(** C27, C28: a parsed entry has exactly the documented form: a 32-byte prefix, then for
    every hasher its piece of the key (the hash, or the matching hash and the encoded value,
    or the encoded value) and nothing else; the value is the encoding of a value of its type. *)
Theorem c27_storage_complete_use : forall blake2_128 twox_64 types key value entry s,
  is_bytes key -> is_bytes value ->
  storage_entry blake2_128 twox_64 types key value entry = Ok s ->
  entry_matches blake2_128 twox_64 types key value (en_ty entry) (st_key s) (st_value s) /\
  st_docs s = docs_text (en_docs entry).
Proof. exact storage_sound. Qed.
Print Assumptions c27_storage_complete_use.

(** In every case the answer is the documented one, and that is unique. *)
Theorem c27_documented : forall blake2_128 twox_64 types key value entry, is_bytes key ->
  entry_answer blake2_128 twox_64 types key value entry (storage_entry blake2_128 twox_64 types key value entry).
Proof. exact storage_answer. Qed.
Print Assumptions c27_documented.

Theorem c27_unique : forall blake2_128 twox_64 types key value entry o1 o2,
  entry_answer blake2_128 twox_64 types key value entry o1 ->
  entry_answer blake2_128 twox_64 types key value entry o2 -> o1 = o2.
Proof. exact entry_unique. Qed.
Print Assumptions c27_unique.

(** C28 on its own: with two or more hashers (or none), every part of the key is what its
    hasher says. *)
Theorem c28_parts_checked : forall blake2_128 twox_64 types key value hashers kt vt docs content i v d,
  is_bytes key -> is_bytes value ->
  storage_entry blake2_128 twox_64 types key value (EntryMeta (EMap hashers kt vt) docs)
    = Ok (Storage (KTuple content i) v d) ->
  exists t ids l, lookup types kt = Some t /\ t_def t = TTuple ids /\ i = Info (docs_text (t_docs t)) (t_path t) /\
    skipn 32 key = List.concat l /\ pieces blake2_128 twox_64 types hashers ids l content.
Proof.
  intros b t64 types key value hashers kt vt docs content i v d Hb Hv H.
  apply storage_sound in H; [|exact Hb|exact Hv]. destruct H as [H _]. cbn [en_ty st_key st_value] in H.
  inversion H as [|hs' kt' vt' prefix rest k x Hk Hl Hm He]; subst. inversion Hm as [|t ids l xs Hn Hlk Hd Hp]; subst.
  exists t, ids, l. repeat split; auto. rewrite <- Hl. rewrite skipn_app_exact. reflexivity.
Qed.
Print Assumptions c28_parts_checked.

Theorem c28_single_checked : forall blake2_128 twox_64 types key value hashers kt vt docs x v d,
  is_bytes key -> is_bytes value ->
  storage_entry blake2_128 twox_64 types key value (EntryMeta (EMap hashers kt vt) docs)
    = Ok (Storage (KSingle x) v d) ->
  exists h, hashers = [h] /\ piece blake2_128 twox_64 types h kt (skipn 32 key) x.
Proof.
  intros b t64 types key value hashers kt vt docs x v d Hb Hv H.
  apply storage_sound in H; [|exact Hb|exact Hv]. destruct H as [H _]. cbn [en_ty st_key st_value] in H.
  inversion H as [|hs' kt' vt' prefix rest k x' Hk Hl Hm He]; subst. inversion Hm as [h bs y Hh Hp|]; subst.
  exists h. split; [reflexivity|]. rewrite <- Hl. rewrite skipn_app_exact. exact Hp.
Qed.
Print Assumptions c28_single_checked.

(** C29: everything of that form is parsed. *)
Theorem c29_parsed : forall blake2_128 twox_64 types, acyclic types -> forall key value entry k x, is_bytes key ->
  entry_matches blake2_128 twox_64 types key value (en_ty entry) k x ->
  storage_entry blake2_128 twox_64 types key value entry = Ok (Storage k x (docs_text (en_docs entry))).
Proof. exact storage_complete. Qed.
Print Assumptions c29_parsed.

(** In particular the keys built by a chain from any values and any hash functions with
    outputs of the right lengths: [items] are the encoded values with their parsed forms. *)
Section Chain.
Variables blake2_128 blake2_256 twox_64 twox_128 twox_256 : bytes -> bytes.
Local Notation hashed := (hashed blake2_128 blake2_256 twox_64 twox_128 twox_256).
Local Notation shown := (shown_part blake2_128 blake2_256 twox_128 twox_256).

Lemma chain_piece types h id bs x : hash_lengths blake2_128 blake2_256 twox_64 twox_128 twox_256 ->
  encodes types id bs x -> piece blake2_128 twox_64 types h id (hashed h bs) (shown h id bs x).
Proof.
  intros Hl He. destruct (Hl bs) as (H1 & H2 & H3 & H4 & H5). destruct h; cbn [SpecStorage.hashed shown_part].
  - eapply P_opaque; [reflexivity|exact H1].
  - eapply P_opaque; [reflexivity|exact H2].
  - eapply P_concat; [reflexivity|exact H1|exact He].
  - eapply P_opaque; [reflexivity|exact H4].
  - eapply P_opaque; [reflexivity|exact H5].
  - eapply P_concat; [reflexivity|exact H3|exact He].
  - apply P_identity; auto.
Qed.

Lemma chain_bytes types h id bs x : hash_bytes blake2_128 blake2_256 twox_64 twox_128 twox_256 ->
  encodes types id bs x -> is_bytes (hashed h bs).
Proof.
  intros Hh (v & He & _). pose proof (enc_bytes _ _ _ _ _ He) as Hb. destruct (Hh bs Hb) as (H1 & H2 & H3 & H4 & H5). destruct h; cbn [SpecStorage.hashed]; auto; apply is_bytes_app; auto.
Qed.

Theorem c29_chain_single : forall types h kt vt docs prefix bs x value y,
  acyclic types -> hash_lengths blake2_128 blake2_256 twox_64 twox_128 twox_256 ->
  hash_bytes blake2_128 blake2_256 twox_64 twox_128 twox_256 ->
  is_bytes prefix -> List.length prefix = 32%nat -> encodes types kt bs x -> encodes types vt value y ->
  storage_entry blake2_128 twox_64 types (prefix ++ hashed h bs) value (EntryMeta (EMap [h] kt vt) docs)
    = Ok (Storage (KSingle (shown h kt bs x)) y (docs_text docs)).
Proof.
  intros types h kt vt docs prefix bs x value y Ha Hl Hh Hp Hlen Hx Hy. apply storage_complete; auto.
  - apply is_bytes_app. split; [exact Hp|]. eapply chain_bytes; eauto.
  - eapply EM_map; eauto. eapply MK_single; eauto. apply chain_piece; auto.
Qed.

Theorem c29_chain_tuple : forall types hashers ids items t kt vt docs prefix value y,
  acyclic types -> hash_lengths blake2_128 blake2_256 twox_64 twox_128 twox_256 ->
  hash_bytes blake2_128 blake2_256 twox_64 twox_128 twox_256 ->
  is_bytes prefix -> List.length prefix = 32%nat ->
  lookup types kt = Some t -> t_def t = TTuple ids -> List.length hashers <> 1%nat -> List.length hashers = List.length ids ->
  Forall2 (fun id item => encodes types id (fst item) (snd item)) ids items -> encodes types vt value y ->
  storage_entry blake2_128 twox_64 types
    (prefix ++ List.concat (map (fun z => hashed (fst z) (fst (snd z))) (combine hashers items))) value
    (EntryMeta (EMap hashers kt vt) docs)
  = Ok (Storage (KTuple (map (fun z => shown (fst (fst z)) (snd (fst z)) (fst (snd z)) (snd (snd z)))
                            (combine (combine hashers ids) items))
                        (Info (docs_text (t_docs t)) (t_path t))) y (docs_text docs)).
Proof.
  intros types hashers ids items t kt vt docs prefix value y Ha Hl Hh Hp Hlen Hlk Hd Hn Hhi Hf Hy.
  assert (Hps : pieces blake2_128 twox_64 types hashers ids
     (map (fun z => hashed (fst z) (fst (snd z))) (combine hashers items))
     (map (fun z => shown (fst (fst z)) (snd (fst z)) (fst (snd z)) (snd (snd z))) (combine (combine hashers ids) items)) /\
     is_bytes (List.concat (map (fun z => hashed (fst z) (fst (snd z))) (combine hashers items)))).
  { clear - Hl Hh Hhi Hf. revert hashers Hhi. induction Hf as [|id item ids items He Hf IH]; intros [|h hashers] Hhi; try discriminate.
    - split; constructor.
    - injection Hhi as Hhi. destruct (IH hashers Hhi) as [H1 H2]. cbn [combine map fst snd List.concat]. split.
      + constructor; [apply chain_piece; auto|exact H1].
      + apply is_bytes_app. split; [eapply chain_bytes; eauto|exact H2]. }
  destruct Hps as [Hps Hb]. apply storage_complete; auto.
  - apply is_bytes_app. auto.
  - eapply EM_map; eauto. eapply MK_tuple; eauto.
Qed.
End Chain.
Print Assumptions c29_chain_single.
Print Assumptions c29_chain_tuple.

(** Concrete cases, with simple functions in place of the hash functions. *)
Definition fake (n : nat) (l : bytes) : bytes := firstn n (l ++ repeat 238%N n).
Definition storage_types : list ty :=
  [ (* 0 *) Ty [] [] (TPrimitive (PrU U32)) []; (* 1 *) Ty [] [] (TPrimitive (PrU U8)) [];
    (* 2 *) Ty [] [] (TTuple [0; 1; 0]%N) [] ].
Definition the_prefix : bytes := repeat 17%N 32.
Definition stored := storage_entry (fake 16) (fake 8) storage_types.
Definition u32v (n : N) : ext pdata := Ext (DUInt U32 n SuNone) [].

Example storage_types_acyclic : acyclic storage_types.
Proof. apply wf_acyclic, wf_check_ok. vm_compute. reflexivity. Qed.

Lemma fake_length n l : List.length (fake n l) = n.
Proof. unfold fake. rewrite firstn_length, app_length, repeat_length. apply Nat.min_l. apply Nat.le_add_l. Qed.

Example c29_hashes : hash_lengths (fake 16) (fake 32) (fake 8) (fake 16) (fake 32).
Proof. intros l. rewrite !fake_length. auto. Qed.

Example c29_hash_bytes : hash_bytes (fake 16) (fake 32) (fake 8) (fake 16) (fake 32).
Proof.
  assert (H : forall n l, is_bytes l -> is_bytes (fake n l)).
  { intros n l Hl. apply Forall_firstn, is_bytes_app. split; [exact Hl|].
    induction n as [|n IH]; cbn [repeat]; constructor; [reflexivity|exact IH]. }
  intros l Hl. auto 6.
Qed.

Definition tuple_entry := EntryMeta (EMap [Twox64Concat; Blake2_256; Identity] 2 0) ["A map."].
Definition tuple_key : bytes :=
  the_prefix ++ (fake 8 [5; 0; 0; 0]%N ++ [5; 0; 0; 0]%N) ++ fake 32 [200]%N ++ [1; 2; 0; 0]%N.

Example c27_example :
  stored tuple_key [9; 0; 0; 0]%N tuple_entry =
    Ok (Storage (KTuple [KParsed (u32v 5); KHash HBlake2_256 (fake 32 [200]%N) 1; KParsed (u32v 513)] (Info "" []))
          (u32v 9) "A map.") /\
  stored (tuple_key ++ [0]%N) [9; 0; 0; 0]%N tuple_entry = Err KeyPartsUnused /\
  stored (the_prefix ++ skipn 1 (fake 8 [5; 0; 0; 0]%N) ++ [0; 5; 0; 0; 0]%N) [9; 0; 0; 0]%N tuple_entry = Err KeyPartHashMismatch /\
  stored tuple_key [9; 0; 0; 0; 0]%N tuple_entry = Err (ParsingValue (SomeDataNotUsedBlob 4)) /\
  stored the_prefix [9; 0; 0; 0]%N (EntryMeta (EPlain 0) []) = Ok (Storage KPlain (u32v 9) "") /\
  stored tuple_key [9; 0; 0; 0]%N (EntryMeta (EPlain 0) []) = Err PlainKeyExceedsPrefix /\
  stored (firstn 31 tuple_key) [9; 0; 0; 0]%N tuple_entry = Err KeyShorterThanPrefix /\
  stored tuple_key [9; 0; 0; 0]%N (EntryMeta (EMap [Identity; Identity] 2 0) []) = Err MultipleHashesNumberMismatch /\
  stored tuple_key [9; 0; 0; 0]%N (EntryMeta (EMap [Identity; Identity] 0 0) []) = Err MultipleHashesNotATuple.
Proof. vm_compute. repeat split. Qed.
