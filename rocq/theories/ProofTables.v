(** The tables of the code against the tables of the specification. *)
From Coq Require Import Lia ZifyBool ZifyNat ZifyN.
From Verif Require Import Base Compact Types Indicators Decode Spec ProofBase.
Local Open Scope string_scope.
Local Open Scope list_scope.

Lemma strs_eqb_eq a b : strs_eqb a b = true <-> a = b.
Proof.
  revert b; induction a as [|x a IH]; intros [|y b]; cbn; split; intros H; try discriminate; auto.
  - apply andb_true_iff in H. destruct H as [H1 H2]. apply String.eqb_eq in H1. apply IH in H2. congruence.
  - injection H as -> ->. rewrite String.eqb_refl. apply IH. reflexivity.
Qed.

Lemma strs_eqb_sym a b : strs_eqb a b = strs_eqb b a.
Proof.
  destruct (strs_eqb a b) eqn:H1, (strs_eqb b a) eqn:H2; auto.
  - apply strs_eqb_eq in H1. subst. rewrite <- H2. symmetry. apply strs_eqb_eq. reflexivity.
  - apply strs_eqb_eq in H2. subst. rewrite <- H1. apply strs_eqb_eq. reflexivity.
Qed.

Lemma strs_eqb_snoc a b x y : strs_eqb (a ++ [x]) (b ++ [y]) = (strs_eqb a b && String.eqb x y)%bool.
Proof.
  destruct (strs_eqb (a ++ [x]) (b ++ [y])) eqn:H.
  - apply strs_eqb_eq in H. apply app_inj_tail in H. destruct H as [-> ->].
    rewrite String.eqb_refl. symmetry. rewrite andb_true_r. apply strs_eqb_eq. reflexivity.
  - destruct (strs_eqb a b) eqn:H1; auto. cbn. destruct (String.eqb_spec x y) as [->|]; auto.
    apply strs_eqb_eq in H1. subst. rewrite (proj2 (strs_eqb_eq _ _) eq_refl) in H. discriminate.
Qed.

Lemma path_ident_snoc ns a : path_ident (ns ++ [a]) = Some a.
Proof.
  induction ns as [|x ns IH]; [reflexivity|]. cbn [app path_ident].
  destruct (ns ++ [a]) as [|y l] eqn:H; [destruct ns; discriminate|]. exact IH.
Qed.

Lemma path_cases (p : list string) : p = [] \/ exists ns a, p = ns ++ [a].
Proof.
  destruct p as [|x p]; [left; auto|right].
  destruct (exists_last (l := x :: p)) as (ns & a & H); [discriminate|]. eauto.
Qed.

Definition hinted_of (t : ty) : hinted :=
  match classify t with
  | SpPlain => if strs_eqb (t_path t) opaque_path then HtUncheckedExtrinsic else HtNone
  | SpRaw k => HtFixed k
  | SpHash => HtH256
  | SpEra => HtEra
  | SpPer k => HtPer k
  | SpMultiSig => HtMultiSignature
  | SpItem i => HtPalletSpecific i
  end.

Ltac name_case a c :=
  destruct (String.eqb_spec a c) as [->|?].

Lemma hinted_classify t : hinted_from_type t = hinted_of t.
Proof.
  unfold hinted_from_type, hinted_of, classify.
  destruct (path_cases (t_path t)) as [->|(ns & a & ->)]; [reflexivity|].
  rewrite path_ident_snoc. unfold path_namespace. rewrite removelast_last, last_last.
  unfold special_paths, opaque_path.
  change ["sp_core"; "ed25519"; "Public"] with (["sp_core"; "ed25519"] ++ ["Public"]).
  change ["sp_core"; "sr25519"; "Public"] with (["sp_core"; "sr25519"] ++ ["Public"]).
  change ["sp_core"; "ecdsa"; "Public"] with (["sp_core"; "ecdsa"] ++ ["Public"]).
  change ["sp_core"; "ed25519"; "Signature"] with (["sp_core"; "ed25519"] ++ ["Signature"]).
  change ["sp_core"; "sr25519"; "Signature"] with (["sp_core"; "sr25519"] ++ ["Signature"]).
  change ["sp_core"; "ecdsa"; "Signature"] with (["sp_core"; "ecdsa"] ++ ["Signature"]).
  change ["sp_runtime"; "generic"; "unchecked_extrinsic"; "UncheckedExtrinsic"] with
    (["sp_runtime"; "generic"; "unchecked_extrinsic"] ++ ["UncheckedExtrinsic"]).
  cbn [find fst]. rewrite !strs_eqb_snoc.
  unfold SP_CORE_ED25519, SP_CORE_SR25519, SP_CORE_ECDSA, UNCHECKED_EXTRINSIC_NAMESPACE.
  rewrite (strs_eqb_sym ns ["sp_core"; "ed25519"]), (strs_eqb_sym ns ["sp_core"; "sr25519"]),
    (strs_eqb_sym ns ["sp_core"; "ecdsa"]).
  unfold special_table. cbn [find fst snd].
  unfold str_in, CALL, EVENT, H160_IDENTS. cbn [existsb].
  generalize (strs_eqb ["sp_core"; "ed25519"] ns) as q1.
  generalize (strs_eqb ["sp_core"; "sr25519"] ns) as q2.
  generalize (strs_eqb ["sp_core"; "ecdsa"] ns) as q3.
  generalize (strs_eqb ns ["sp_runtime"; "generic"; "unchecked_extrinsic"]) as q4.
  intros q4 q3 q2 q1. clear ns.
  name_case a "AccountId32"; [destruct q1, q2, q3, q4; reflexivity|].
  name_case a "Call"; [destruct q1, q2, q3, q4; reflexivity|].
  name_case a "RuntimeCall"; [destruct q1, q2, q3, q4; reflexivity|].
  name_case a "Era"; [destruct q1, q2, q3, q4; reflexivity|].
  name_case a "Event"; [destruct q1, q2, q3, q4; reflexivity|].
  name_case a "RuntimeEvent"; [destruct q1, q2, q3, q4; reflexivity|].
  name_case a "AccountId20"; [destruct q1, q2, q3, q4; reflexivity|].
  name_case a "H160"; [destruct q1, q2, q3, q4; reflexivity|].
  name_case a "H256"; [destruct q1, q2, q3, q4; reflexivity|].
  name_case a "H512"; [destruct q1, q2, q3, q4; reflexivity|].
  name_case a "MultiSignature"; [destruct q1, q2, q3, q4; reflexivity|].
  name_case a "Perbill"; [destruct q1, q2, q3, q4; reflexivity|].
  name_case a "Percent"; [destruct q1, q2, q3, q4; reflexivity|].
  name_case a "Permill"; [destruct q1, q2, q3, q4; reflexivity|].
  name_case a "Perquintill"; [destruct q1, q2, q3, q4; reflexivity|].
  name_case a "PerU16"; [destruct q1, q2, q3, q4; reflexivity|].
  name_case a "Public"; [destruct q1, q2, q3, q4; reflexivity|].
  name_case a "Signature"; [destruct q1, q2, q3, q4; reflexivity|].
  name_case a "UncheckedExtrinsic"; [destruct q1, q2, q3, q4; reflexivity|].
  assert (Hs : forall c, a <> c -> String.eqb c a = false).
  { intros c Hc. apply String.eqb_neq. congruence. }
  repeat match goal with
  | H : a <> ?c |- _ => rewrite (Hs c H); clear H
  end.
  cbn [orb andb]. rewrite !andb_false_r. cbn. reflexivity.
Qed.

Lemma own_info_spec t :
  own_info t = if info_is_empty (info_from_ty t) then [] else [info_from_ty t].
Proof.
  unfold own_info, info_is_empty, info_from_ty, collect_docs, newline. cbn [i_docs i_path].
  change (ascii_of_nat 10) with (ascii_of_N 10).
  destruct (t_docs t) as [|[|c s] [|d l]]; destruct (t_path t); cbn; reflexivity.
Qed.

Lemma info_from_ty_spec t : info_from_ty t = Info (docs_text (t_docs t)) (t_path t).
Proof. reflexivity. Qed.

Lemma collect_docs_spec l : collect_docs l = docs_text l.
Proof. reflexivity. Qed.

Lemma hint_from_field_spec f : hint_from_field f = field_label f.
Proof.
  unfold hint_from_field, field_label.
  assert (Hbal : forall n, str_in n BALANCE_ID_SET = existsb (String.eqb n) balance_type_names).
  { intros n. unfold str_in, BALANCE_ID_SET, balance_type_names. cbn [existsb].
    repeat match goal with |- context [String.eqb n ?c] => destruct (String.eqb n c) end; reflexivity. }
  destruct (f_name f) as [a|].
  - unfold str_in, NONCE_ID_SET, SPEC_VERSION_ID_SET, SPEC_NAME_ID_SET, TX_VERSION_ID_SET,
      field_name_labels. cbn [existsb find fst].
    rewrite (String.eqb_sym "nonce" a), (String.eqb_sym "spec_version" a),
      (String.eqb_sym "spec_name" a), (String.eqb_sym "tx_version" a),
      (String.eqb_sym "transaction_version" a).
    destruct (String.eqb a "nonce"); [reflexivity|].
    destruct (String.eqb a "spec_version"); [reflexivity|].
    destruct (String.eqb a "spec_name"); [reflexivity|].
    destruct (String.eqb a "tx_version"); [reflexivity|].
    destruct (String.eqb a "transaction_version"); [reflexivity|].
    cbn [orb]. destruct (f_type_name f); [|reflexivity]. 
    change (existsb (String.eqb s) BALANCE_ID_SET) with (str_in s BALANCE_ID_SET).
    rewrite Hbal. reflexivity.
  - destruct (f_type_name f); [|reflexivity]. rewrite Hbal. reflexivity.
Qed.

Lemma hint_from_path_spec t : hint_from_path (t_path t) = path_label t.
Proof.
  unfold hint_from_path, path_label.
  destruct (path_cases (t_path t)) as [->|(ns & a & ->)]; [reflexivity|].
  rewrite path_ident_snoc, last_last. unfold path_labels. cbn [find fst].
  rewrite (String.eqb_sym "CheckNonce" a), (String.eqb_sym "ChargeTransactionPayment" a),
    (String.eqb_sym "ChargeAssetTxPayment" a).
  name_case a "CheckNonce"; [reflexivity|].
  name_case a "ChargeAssetTxPayment"; [reflexivity|].
  destruct (String.eqb a "ChargeTransactionPayment"); reflexivity.
Qed.

Lemma hint_uint_spec h : hint_uint h = uint_labels h.
Proof. destruct h; reflexivity. Qed.

Lemma hint_str_spec h : hint_str h = str_label h.
Proof. destruct h; reflexivity. Qed.

Lemma hint_hash_spec h : hint_hash h = hash_label h.
Proof. destruct h; reflexivity. Qed.

Lemma or_label_hint h h' : or_label h h' = match h with HNone => h' | _ => h end.
Proof. reflexivity. Qed.

(** ** Collecting *)

Lemma width_eqb_spec a b : width_eqb a b = true <-> a = b.
Proof. destruct a, b; cbn; split; intros H; try discriminate; auto. Qed.

Lemma info_eqb_eq a b : info_eqb a b = true <-> a = b.
Proof.
  destruct a as [d p], b as [d' p']. unfold info_eqb. cbn [i_docs i_path].
  rewrite andb_true_iff, String.eqb_eq, strs_eqb_eq. split; [intros [-> ->]; auto|].
  intros H; injection H as -> ->; auto.
Qed.

Lemma infos_eqb_eq a b : infos_eqb a b = true <-> a = b.
Proof.
  revert b; induction a as [|x a IH]; intros [|y b]; cbn; split; intros H; try discriminate; auto.
  - apply andb_true_iff in H. destruct H as [H1 H2]. apply info_eqb_eq in H1. apply IH in H2. congruence.
  - injection H as -> ->. apply andb_true_iff. split; [apply info_eqb_eq|apply IH]; reflexivity.
Qed.

Definition uint_item (w : uwidth) (d : pdata) : option N :=
  match d with
  | DUInt w' n SuNone => if width_eqb w w' then Some n else None
  | _ => None
  end.

Definition bytes_item (inf : list info) (d : pdata) : option bytes :=
  match d with
  | DSequence inf' (SeqU U8 a) => if infos_eqb inf inf' then Some a else None
  | DSequenceRaw _ [] => Some []
  | _ => None
  end.

Lemma husk_set_uint_spec w l : husk_set_uint w l = map_opt (uint_item w) l.
Proof.
  induction l as [|d l IH]; [reflexivity|]. cbn [husk_set_uint map_opt]. rewrite <- IH.
  destruct d; try reflexivity. destruct specialty; try reflexivity.
  destruct w, w0; cbn; destruct (husk_set_uint _ l); reflexivity.
Qed.

Lemma husk_set_vec_some inf l :
  husk_set_vec l (Some inf) = option_map (fun x => (x, Some inf)) (map_opt (bytes_item inf) l).
Proof.
  induction l as [|d l IH]; [reflexivity|]. cbn [husk_set_vec map_opt].
  destruct d; try reflexivity.
  - cbn [bytes_item]. destruct s as [[]|]; try reflexivity.
    rewrite IH. destruct (infos_eqb inf element_info); [|reflexivity].
    destruct (map_opt (bytes_item inf) l); reflexivity.
  - destruct l0; [|reflexivity]. rewrite IH. cbn [bytes_item].
    destruct (map_opt (bytes_item inf) l); reflexivity.
Qed.

Lemma infos_eqb_refl a : infos_eqb a a = true.
Proof. apply infos_eqb_eq. reflexivity. Qed.

Lemma wrap_sequence_collect l : wrap_sequence l = collect l.
Proof.
  destruct l as [|d l]; [reflexivity|]. unfold wrap_sequence, collect.
  destruct d; try reflexivity.
  - rewrite husk_set_uint_spec. reflexivity.
  - destruct s as [[] |]; try reflexivity.
    cbn [husk_set_vec]. rewrite husk_set_vec_some.
    change (map_opt _ (DSequence element_info (SeqU U8 l0) :: l)) with
      (map_opt (bytes_item element_info) (DSequence element_info (SeqU U8 l0) :: l)).
    cbn [map_opt bytes_item]. rewrite infos_eqb_refl.
    destruct (map_opt (bytes_item element_info) l); reflexivity.
Qed.
