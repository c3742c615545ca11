(** C57: notes on cards. *)
From Coq Require Import Lia.
From Verif Require Import Base Compact Types Decode Sign Balance Cards Spec SpecCards SpecNotes ProofCards ProofCards2 ProofShow Api ApiSign.
Local Open Scope string_scope.
Local Open Scope list_scope.

Lemma flatten_written i : flatten i = written (on_type i).
Proof.
  unfold flatten, written, on_type. cbn [n_docs n_path]. f_equal.
  - destruct (i_docs i); reflexivity.
  - destruct (i_path i) as [|s l]; [reflexivity|]. cbn [written_path]. f_equal. revert s.
    induction l as [|x l IH]; intros s; [reflexivity|]. cbn [fold_left]. rewrite <- IH.
    change (join " >> " (s :: x :: l)) with (s ++ " >> " ++ join " >> " (x :: l))%string.
    destruct l as [|y l].
    + reflexivity.
    + change (join " >> " (x :: y :: l)) with (x ++ " >> " ++ join " >> " (y :: l))%string.
      change (join " >> " ((s ++ " >> " ++ x)%string :: y :: l)) with ((s ++ " >> " ++ x) ++ " >> " ++ join " >> " (y :: l))%string.
      rewrite !str_assoc. reflexivity.
Qed.

Lemma flattens l : map flatten l = map written (map on_type l).
Proof. rewrite map_map. apply map_ext, flatten_written. Qed.

Lemma remarks docs : info_with_docs_only docs = map written (remark docs).
Proof. destruct docs; reflexivity. Qed.

Section Notes.
Variable base58 : fixed_kind -> bytes -> N -> string.
Variable identicon : bytes -> bytes.
Variable specs : short_specs.
Variable chain_name : string.
Notation card := (card base58 identicon specs chain_name).

Definition notes_on (c : ecard) : list info_flat * list info_flat := (ec_info c, element_infos (ec_card c)).

Definition noted (d : pdata) : Prop := forall above n db,
  map notes_on (card d (map written above) n db) = map written_sheet (sheets d above).

Definition headed (f : fdata pdata) := (remark (fd_docs f), []) :: sheets (x_data (fd_data f)) (map on_type (x_info (fd_data f))).

Lemma header_plain (f : fdata pdata) i : element_infos (match fd_name f with Some a => PcFieldName a | None => PcFieldNumber i end) = [].
Proof. destruct (fd_name f); reflexivity. Qed.

Lemma noted_field_set fs : Forall (fun f => noted (x_data (fd_data f))) fs -> forall k n db,
  map notes_on (card_field_set card k fs n db) = map written_sheet (flat_map headed fs).
Proof.
  induction 1 as [|f r Hf Hr IH]; intros k n db; [reflexivity|].
  cbn [card_field_set flat_map]. unfold headed at 1. cbn [map app]. rewrite !map_app, IH. f_equal.
  - unfold notes_on, written_sheet. cbn [ec_info ec_card fst snd map]. rewrite header_plain, remarks. reflexivity.
  - f_equal. unfold card_ext_with. rewrite flattens. apply Hf.
Qed.

Lemma noted_single f : noted (x_data (fd_data f)) -> forall above n db,
  map notes_on (card_unnamed_single_field card (map written above) f n db)
  = map written_sheet (sheets (x_data (fd_data f)) ((above ++ remark (fd_docs f)) ++ map on_type (x_info (fd_data f)))).
Proof.
  intros H above n db. unfold card_unnamed_single_field.
  rewrite <- H. f_equal. f_equal. rewrite !map_app, <- flattens. f_equal.
  destruct (fd_docs f); cbn [str_is_empty remark map]; [rewrite app_nil_r|]; reflexivity.
Qed.

Lemma noted_inside fs : Forall (fun f => noted (x_data (fd_data f))) fs -> forall n db,
  map notes_on (card_variant_fields card fs n db) = map written_sheet
    (match fs with
     | [FData None _ _ _ as f] => sheets (x_data (fd_data f)) (([] ++ remark (fd_docs f)) ++ map on_type (x_info (fd_data f)))
     | _ => flat_map headed fs
     end).
Proof.
  intros H n db. unfold card_variant_fields. destruct fs as [|f [|g r]]; [reflexivity| |].
  - destruct f as [[nm|] t dc x]; cbn [fd_name]; [apply noted_field_set, H|].
    inversion H as [|? ? H1 _]; subst. apply (noted_single _ H1 []).
  - rewrite (noted_field_set _ H). destruct f as [[nm|] t dc x]; reflexivity.
Qed.

Lemma leaf_sheets d above : leaf d -> sheets d above = [(above, [])].
Proof. destruct d; cbn; intros L; try contradiction L; reflexivity. Qed.

Theorem noted_all d : noted d.
Proof.
  induction d as [d L|fs H|v H|c H|c H|l H|i s|i l H] using pdata_ind'; intros above n db.
  - rewrite (leaf_sheets _ _ L). cbn [map]. unfold written_sheet. cbn [fst snd map].
    destruct d; try contradiction L; try reflexivity.
    + cbn [Cards.card map]. unfold notes_on. cbn [ec_info ec_card]. destruct k; reflexivity.
    + cbn [Cards.card map]. unfold notes_on. cbn [ec_info ec_card].
      destruct specialty; cbn [specialty_card]; try reflexivity. destruct db; reflexivity.
    + destruct specialty; reflexivity.
  - cbn [Cards.card]. destruct fs as [|f [|g r]].
    + reflexivity.
    + destruct f as [[nm|] t dc x]; cbn [fd_name].
      * cbn [map]. rewrite (noted_field_set _ H). reflexivity.
      * inversion H as [|? ? H1 _]; subst. rewrite (noted_single _ H1 above). reflexivity.
    + cbn [map]. rewrite (noted_field_set _ H). destruct f as [[nm|] t dc x]; reflexivity.
  - cbn [Cards.card map]. rewrite (noted_inside _ H). cbn [sheets map]. f_equal. f_equal.
    unfold notes_on, written_sheet. cbn [ec_info ec_card element_infos fst snd map]. rewrite remarks. reflexivity.
  - cbn [Cards.card]. unfold card_pallet_specific. cbn [map]. rewrite (noted_inside _ H). cbn [sheets map]. f_equal.
    + unfold notes_on, written_sheet. cbn [ec_info ec_card element_infos fst snd map]. rewrite flatten_written. reflexivity.
    + f_equal. unfold notes_on, written_sheet. cbn [ec_info ec_card element_infos fst snd map]. rewrite remarks. reflexivity.
  - cbn [Cards.card]. unfold card_pallet_specific. cbn [map]. rewrite (noted_inside _ H). cbn [sheets map]. f_equal.
    + unfold notes_on, written_sheet. cbn [ec_info ec_card element_infos fst snd map]. rewrite flatten_written. reflexivity.
    + f_equal. unfold notes_on, written_sheet. cbn [ec_info ec_card element_infos fst snd map]. rewrite remarks. reflexivity.
  - cbn [Cards.card]. destruct l as [|x0 r0]; [reflexivity|].
    change (sheets (DTuple (x0 :: r0)) above) with
      ((above, []) :: flat_map (fun x => sheets (x_data x) (map on_type (x_info x))) (x0 :: r0)).
    cbn [map]. f_equal. generalize dependent (x0 :: r0). clear x0 r0. intros l H.
    induction H as [|x r Hx Hr IH]; [reflexivity|]. cbn [card_tuple flat_map]. rewrite !map_app, IH. f_equal.
    unfold card_ext_with. rewrite flattens. apply Hx.
  - cbn [Cards.card]. unfold card_sequence.
    destruct s as [[] l|l inner]; cbn [sheets map]; unfold seq_u8_card;
      (apply f_equal2; [unfold notes_on, written_sheet; cbn [ec_info ec_card element_infos fst snd]; rewrite flattens; reflexivity|]);
      try reflexivity; rewrite !map_map; apply map_ext; intros a; unfold notes_on, written_sheet;
      cbn [ec_info ec_card element_infos fst snd map]; rewrite ?flattens; reflexivity.
  - cbn [Cards.card sheets map]. f_equal.
    + unfold notes_on, written_sheet; cbn [ec_info ec_card element_infos fst snd]; rewrite flattens; reflexivity.
    + induction H as [|x r Hx Hr IH]; [reflexivity|]. cbn [card_elements flat_map]. rewrite !map_app, IH. f_equal.
      apply (Hx []).
Qed.

Theorem ext_notes x n db :
  map notes_on (card_ext base58 identicon specs chain_name x n db) = map written_sheet (sheets (x_data x) (map on_type (x_info x))).
Proof. unfold card_ext, card_ext_with. rewrite flattens. apply noted_all. Qed.
End Notes.
