(** Proofs for C67. *)
From Coq Require Import Lia ZifyBool ZifyNat ZifyN.
From Verif Require Import Base Compact Types Cards Blake2b Address Spec SpecCards SpecSee SpecAddress.
Local Open Scope N_scope.
Local Open Scope list_scope.

(** ** Numbers *)

Lemma number_app b l m : number b (l ++ m) = number b l * b ^ N.of_nat (List.length m) + number b m.
Proof.
  induction l as [|d l IH]; cbn [number app]; [lia|]. rewrite app_length, Nnat.Nat2N.inj_add, N.pow_add_r, IH. ring.
Qed.

Lemma be_val_number l : be_val l = number 256 l.
Proof.
  unfold be_val. assert (H : forall l acc, fold_left (fun acc x => acc * 256 + x) l acc = acc * 256 ^ N.of_nat (List.length l) + number 256 l).
  { clear. induction l as [|d l IH]; intros acc; cbn [fold_left number List.length]; [rewrite N.pow_0_r; lia|].
    rewrite IH, Nnat.Nat2N.inj_succ, N.pow_succ_r'. ring. }
  rewrite H. lia.
Qed.

Lemma number_bound b l : 1 <= b -> Forall (fun d => d < b) l -> number b l < b ^ N.of_nat (List.length l).
Proof.
  intros Hb. induction 1 as [|d l Hd _ IH]; [cbn; lia|]. cbn [number List.length].
  rewrite Nnat.Nat2N.inj_succ, N.pow_succ_r'. nia.
Qed.

(** The digits of equal numbers are equal. *)
Lemma number_inj_length b l m : 1 <= b -> Forall (fun d => d < b) l -> Forall (fun d => d < b) m ->
  List.length l = List.length m -> number b l = number b m -> l = m.
Proof.
  intros Hb Hl. revert m. induction Hl as [|d l Hd Hl IH]; intros [|e m] Hm Hlen E; try discriminate Hlen; [reflexivity|].
  inversion Hm as [|? ? He Hm']; subst. cbn [number List.length] in E, Hlen. injection Hlen as Hlen. rewrite <- Hlen in E.
  pose proof (number_bound b l Hb Hl) as B1. pose proof (number_bound b m Hb Hm') as B2. rewrite <- Hlen in B2.
  assert (d = e) as <- by nia. rewrite (IH m Hm' Hlen); [reflexivity|lia].
Qed.

Lemma number_low b l : 1 <= b -> no_zero_first l -> l <> [] -> b ^ N.of_nat (List.length l - 1) <= number b l.
Proof.
  intros Hb Hz Hn. destruct l as [|d l]; [congruence|]. cbn [number List.length].
  replace (S (List.length l) - 1)%nat with (List.length l) by lia.
  assert (d <> 0) by (destruct d; [destruct Hz|discriminate]). nia.
Qed.

Lemma number_length b l m : 2 <= b -> Forall (fun d => d < b) l -> Forall (fun d => d < b) m ->
  no_zero_first l -> no_zero_first m -> number b l = number b m -> List.length l = List.length m.
Proof.
  assert (G : forall l m, 2 <= b -> Forall (fun d => d < b) l -> no_zero_first m ->
    number b l = number b m -> (List.length m <= List.length l)%nat).
  { clear. intros l m Hb Hl Hz E. destruct m as [|e m]; [cbn; lia|].
    pose proof (number_low b (e :: m) ltac:(lia) Hz ltac:(discriminate)) as H. pose proof (number_bound b l ltac:(lia) Hl) as B.
    rewrite E in B. assert (N.of_nat (List.length (e :: m) - 1) < N.of_nat (List.length l)); [|cbn [List.length] in *; lia].
    apply (N.pow_lt_mono_r_iff b); lia. }
  intros Hb Hl Hm Zl Zm E. apply Nat.le_antisymm; apply G; auto.
Qed.

Lemma number_inj b l m : 2 <= b -> Forall (fun d => d < b) l -> Forall (fun d => d < b) m ->
  no_zero_first l -> no_zero_first m -> number b l = number b m -> l = m.
Proof.
  intros Hb Hl Hm Zl Zm E. eapply number_inj_length; eauto; [lia|]. eapply number_length; eauto.
Qed.

(** ** Digits *)

Lemma digits_loop_number base : 2 <= base -> forall fuel n acc, n < 2 ^ N.of_nat fuel ->
  number base (digits_loop fuel base n acc) = n * base ^ N.of_nat (List.length acc) + number base acc.
Proof.
  intros Hb. induction fuel as [|k IH]; intros n acc Hn; cbn [digits_loop].
  - change (2 ^ N.of_nat 0) with 1 in Hn. assert (n = 0) as -> by lia. lia.
  - destruct (N.eqb_spec n 0) as [->|H0]; [lia|]. rewrite IH.
    + cbn [number List.length]. rewrite Nnat.Nat2N.inj_succ, N.pow_succ_r'. pose proof (N.div_mod' n base). nia.
    + rewrite Nnat.Nat2N.inj_succ, N.pow_succ_r' in Hn. apply N.div_lt_upper_bound; [lia|]. nia.
Qed.

Lemma digits_loop_digits base : 2 <= base -> forall fuel n acc,
  Forall (fun d => d < base) acc -> Forall (fun d => d < base) (digits_loop fuel base n acc).
Proof.
  intros Hb. induction fuel as [|k IH]; intros n acc Ha; cbn [digits_loop]; [exact Ha|].
  destruct (n =? 0); [exact Ha|]. apply IH. constructor; [apply N.mod_lt; lia|exact Ha].
Qed.

Lemma digits_loop_first base : 2 <= base -> forall fuel n acc, n < 2 ^ N.of_nat fuel ->
  (n = 0 -> no_zero_first acc) -> no_zero_first (digits_loop fuel base n acc).
Proof.
  intros Hb. induction fuel as [|k IH]; intros n acc Hn Ha; cbn [digits_loop].
  - change (2 ^ N.of_nat 0) with 1 in Hn. apply Ha. lia.
  - destruct (N.eqb_spec n 0) as [H0|H0]; [auto|]. apply IH.
    + rewrite Nnat.Nat2N.inj_succ, N.pow_succ_r' in Hn. apply N.div_lt_upper_bound; [lia|]. nia.
    + intros Hd. pose proof (N.div_mod' n base) as D. rewrite Hd in D. cbn [no_zero_first].
      destruct (n mod base); [lia|exact I].
Qed.

Lemma size_bound n : n < 2 ^ N.of_nat (N.size_nat n).
Proof.
  replace (N.of_nat (N.size_nat n)) with (N.size n); [apply N.size_gt|].
  destruct n as [|p]; [reflexivity|]. cbn [N.size N.size_nat]. induction p as [p IH|p IH|]; cbn; rewrite <- ?IH; lia.
Qed.

Lemma digits_ok base n : 2 <= base ->
  number base (digits base n) = n /\ Forall (fun d => d < base) (digits base n) /\ no_zero_first (digits base n).
Proof.
  intros Hb. unfold digits. pose proof (size_bound n). split; [|split].
  - rewrite digits_loop_number by auto. cbn. lia.
  - apply digits_loop_digits; auto.
  - apply digits_loop_first; auto. cbn. auto.
Qed.

(** ** Base 58 *)

Lemma leading_split l : exists m, l = repeat 0 (leading_zeros l) ++ m /\ no_zero_first m.
Proof.
  induction l as [|d l (m & E & Hm)]; [exists []; cbn; auto|]. destruct d as [|d].
  - exists m. cbn [leading_zeros repeat app]. split; [congruence|exact Hm].
  - exists (N.pos d :: l). cbn. auto.
Qed.

Lemma number_zeros b z : number b (repeat 0 z) = 0.
Proof. induction z as [|z IH]; [reflexivity|]. cbn [repeat number]. rewrite IH. lia. Qed.

Lemma letter_stands d : d < 58 -> stands_for (letter d) d.
Proof.
  intros Hd. split; [exact Hd|]. unfold letter. change alphabet with letters58.
  destruct (String.get (N.to_nat d) letters58) eqn:G; [reflexivity|exfalso].
  assert (H : forallb (fun k => match String.get k letters58 with Some _ => true | None => false end) (seq 0 58) = true) by (vm_compute; reflexivity).
  rewrite forallb_forall in H. specialize (H (N.to_nat d)). rewrite G in H. enough (false = true) by discriminate. apply H.
  apply in_seq. lia.
Qed.

(** Different digits have different letters. *)
Lemma stands_value c d e : stands_for c d -> stands_for c e -> d = e.
Proof.
  intros [Hd Gd] [He Ge].
  assert (H : forallb (fun i => forallb (fun j => (Nat.eqb i j || match String.get i letters58, String.get j letters58 with
      Some a, Some b => negb (Ascii.eqb a b) | _, _ => true end)%bool) (seq 0 58)) (seq 0 58) = true) by (vm_compute; reflexivity).
  rewrite forallb_forall in H. specialize (H (N.to_nat d) ltac:(apply in_seq; lia)).
  rewrite forallb_forall in H. specialize (H (N.to_nat e) ltac:(apply in_seq; lia)). rewrite Gd, Ge, Ascii.eqb_refl in H.
  rewrite orb_false_r in H. apply Nat.eqb_eq in H. lia.
Qed.

Lemma stands_list cs ds es : Forall2 stands_for cs ds -> Forall2 stands_for cs es -> ds = es.
Proof.
  intros H. revert es. induction H as [|c d cs ds Hc _ IH]; intros es H'; inversion H'; subst; [reflexivity|].
  f_equal; [eapply stands_value; eauto|auto].
Qed.

Lemma stands_small cs ds : Forall2 stands_for cs ds -> Forall (fun d => d < 58) ds.
Proof. induction 1 as [|c d cs ds [Hd _] _ IH]; constructor; auto. Qed.

Lemma letters_stand ds : Forall (fun d => d < 58) ds -> Forall2 stands_for (map letter ds) ds.
Proof. induction 1; cbn [map]; constructor; auto. apply letter_stands. assumption. Qed.

Lemma base58_encode_text l : base58_text (base58_encode l) l.
Proof.
  destruct (leading_split l) as (m & E & Hm). pose proof (digits_ok 58 (be_val l) ltac:(lia)) as (Hn & Hd & Hz).
  exists (leading_zeros l), (digits 58 (be_val l)), m. split; [|split; [exact E|split; [exact Hz|split; [exact Hm|]]]].
  - unfold base58_encode. rewrite list_ascii_of_string_of_list_ascii. apply letters_stand. apply Forall_app. split; [|exact Hd].
    apply Forall_forall. intros x Hx. apply repeat_spec in Hx. subst x. lia.
  - rewrite Hn, be_val_number. rewrite E at 1. rewrite number_app, number_zeros. lia.
Qed.

Lemma zeros_split z1 z2 (l m : list N) : no_zero_first l -> no_zero_first m -> repeat 0 z1 ++ l = repeat 0 z2 ++ m -> z1 = z2 /\ l = m.
Proof.
  intros Hl Hm. revert z2. induction z1 as [|z1 IH]; intros [|z2] E; cbn [repeat app] in E.
  - auto.
  - subst l. destruct Hl.
  - subst m. destruct Hm.
  - injection E as E. destruct (IH _ E) as [-> ->]. auto.
Qed.

Lemma base58_text_bytes s l l' : is_bytes l -> is_bytes l' -> base58_text s l -> base58_text s l' -> l = l'.
Proof.
  intros Hl Hl' (z & ds & m & F & -> & Zd & Zm & E) (z' & ds' & m' & F' & -> & Zd' & Zm' & E').
  destruct (zeros_split _ _ _ _ Zd Zd' (stands_list _ _ _ F F')) as [<- <-]. f_equal.
  apply Forall_app in Hl, Hl'. apply (number_inj 256); try tauto; [lia|congruence].
Qed.

Lemma letters_list cs cs' ds : Forall2 stands_for cs ds -> Forall2 stands_for cs' ds -> cs = cs'.
Proof.
  intros H. revert cs'. induction H as [|c d cs ds [_ Hc] _ IH]; intros cs' H'; inversion H' as [|c' ? ? ? [_ Hc'] H2]; subst; [reflexivity|].
  f_equal; [congruence|auto].
Qed.

Lemma base58_text_unique s s' l : base58_text s l -> base58_text s' l -> s = s'.
Proof.
  intros (z & ds & m & F & -> & Zd & Zm & E) (z' & ds' & m' & F' & H & Zd' & Zm' & E').
  destruct (zeros_split _ _ _ _ Zm Zm' H) as [<- <-].
  assert (ds = ds') as <-.
  { apply (number_inj 58); auto; [lia| | |congruence].
    - apply stands_small in F. apply Forall_app in F. tauto.
    - apply stands_small in F'. apply Forall_app in F'. tauto. }
  pose proof (letters_list _ _ _ F F') as G. rewrite <- (string_of_list_ascii_of_string s), <- (string_of_list_ascii_of_string s').
  congruence.
Qed.

(** ** SS58 *)

Definition type_check (p : N) : bool :=
  if p <? 64 then match prefix_bytes p with [x] => x =? p | _ => false end
  else match prefix_bytes p with [x; y] => (x =? 64 + p / 4 mod 64) && (y =? 64 * (p mod 4) + p / 256) | _ => false end.

Lemma prefix_small p : p < 16384 -> type_bytes p (prefix_bytes p).
Proof.
  intros Hp. assert (H : forallb type_check (map N.of_nat (seq 0 (N.to_nat 16384))) = true) by (vm_compute; reflexivity).
  rewrite forallb_forall in H. specialize (H p). unfold type_check in H. 
  assert (I : In p (map N.of_nat (seq 0 (N.to_nat 16384)))).
  { apply in_map_iff. exists (N.to_nat p). split; [lia|]. apply in_seq. lia. }
  specialize (H I). clear I. destruct (N.ltb_spec p 64) as [Hlt|Hge].
  - left. split; [exact Hlt|]. destruct (prefix_bytes p) as [|x [|? ?]]; try discriminate H. apply N.eqb_eq in H. congruence.
  - right. split; [exact Hge|]. split; [exact Hp|]. destruct (prefix_bytes p) as [|x [|y [|? ?]]]; try discriminate H.
    apply andb_true_iff in H. destruct H as [H1 H2]. apply N.eqb_eq in H1, H2. congruence.
Qed.

Lemma prefix_type p : type_bytes (p mod 16384) (prefix_bytes p).
Proof.
  assert (Hm : N.land p 0x3fff = p mod 16384) by (change 0x3fff with (N.ones 14); apply (N.land_ones p 14)).
  assert (E : prefix_bytes p = prefix_bytes (p mod 16384)).
  { unfold prefix_bytes. rewrite Hm.
    replace (N.land (p mod 16384) 0x3fff) with (p mod 16384); [reflexivity|].
    change 0x3fff with (N.ones 14). rewrite N.land_ones. change (2 ^ 14) with 16384. rewrite N.mod_mod; lia. }
  rewrite E. apply prefix_small. apply N.mod_lt. lia.
Qed.

Lemma type_is_bytes p t : type_bytes p t -> is_bytes t.
Proof.
  intros [[Hp ->]|(H1 & H2 & ->)].
  - repeat constructor. unfold is_byte. lia.
  - assert (64 + p / 4 mod 64 < 256 /\ 64 * (p mod 4) + p / 256 < 256) as [? ?] by (Z.to_euclidean_division_equations; lia).
    repeat constructor; assumption.
Qed.

Lemma type_unique p p' t t' a b : type_bytes p t -> type_bytes p' t' -> t ++ a = t' ++ b -> p = p' /\ t = t' /\ a = b.
Proof.
  intros [[Hp ->]|(H1 & H2 & ->)] [[Hp' ->]|(H1' & H2' & ->)] E; cbn [app] in E.
  - assert (p = p') as <- by congruence. assert (a = b) as <- by congruence. auto.
  - exfalso. assert (E1 : p = 64 + p' / 4 mod 64) by congruence. clear - Hp E1. lia.
  - exfalso. assert (E1 : p' = 64 + p / 4 mod 64) by congruence. clear - Hp' E1. lia.
  - assert (E1 : 64 + p / 4 mod 64 = 64 + p' / 4 mod 64) by congruence.
    assert (E2 : 64 * (p mod 4) + p / 256 = 64 * (p' mod 4) + p' / 256) by congruence.
    assert (E3 : a = b) by congruence. clear E.
    assert (G : forall p, p < 16384 -> p = 256 * (p / 256) + 4 * (p / 4 mod 64) + p mod 4 /\ p / 256 < 64).
    { clear. intros p Hp. Z.to_euclidean_division_equations. lia. }
    destruct (G p H2) as [A1 A2]. destruct (G p' H2') as [B1 B2]. clear G.
    assert (p = p') by (rewrite A1, B1; clear - A2 B2 E1 E2; lia). subst p'. auto.
Qed.

Lemma address_text_ok hash k key p : address_text hash (address_with hash k key p) (p mod 16384) key.
Proof.
  exists (prefix_bytes p). eexists. split; [apply prefix_type|]. split; [reflexivity|].
  unfold address_with. change (map N_of_ascii (list_ascii_of_string "SS58PRE")) with ss58_pre.
  rewrite (app_assoc (prefix_bytes p) key (firstn 2 _)). apply base58_encode_text.
Qed.

Lemma app_end_inv {A} (a b c d : list A) : List.length c = List.length d -> a ++ c = b ++ d -> a = b.
Proof.
  intros Hl E. assert (List.length a = List.length b) as Hn.
  { apply (f_equal (@List.length A)) in E. rewrite !app_length in E. lia. }
  revert b Hn E. induction a as [|x a IH]; intros [|y b] Hn E; try discriminate Hn; [reflexivity|].
  cbn [app] in E. injection E as -> E. injection Hn as Hn. f_equal. auto.
Qed.

Lemma address_text_unique hash s p p' key key' : hash_like hash -> is_bytes key -> is_bytes key' ->
  address_text hash s p key -> address_text hash s p' key' -> p = p' /\ key = key'.
Proof.
  intros Hh Hk Hk' (t & c & Ht & Hc & H) (t' & c' & Ht' & Hc' & H').
  assert (B : forall p t key c, type_bytes p t -> is_bytes key -> firstn 2 (hash (map N_of_ascii (list_ascii_of_string "SS58PRE") ++ t ++ key)) = c ->
    is_bytes (t ++ key ++ c) /\ List.length c = 2%nat).
  { clear - Hh. intros p t key c Ht Hk <-. destruct (Hh (map N_of_ascii (list_ascii_of_string "SS58PRE") ++ t ++ key)) as [Hb Hn].
    split; [|rewrite firstn_length; lia]. apply Forall_app. split; [eapply type_is_bytes; exact Ht|]. apply Forall_app. split; [exact Hk|].
    rewrite <- (firstn_skipn 2) in Hb. apply Forall_app in Hb. tauto. }
  destruct (B _ _ _ _ Ht Hk Hc) as [Hb Hn]. destruct (B _ _ _ _ Ht' Hk' Hc') as [Hb' Hn'].
  pose proof (base58_text_bytes _ _ _ Hb Hb' H H') as E. destruct (type_unique _ _ _ _ _ _ Ht Ht' E) as (-> & -> & E2).
  split; [reflexivity|]. eapply app_end_inv; [|exact E2]. congruence.
Qed.

(** ** Blake2b *)

Lemma le_bytes64_ok k n : is_bytes (le_bytes64 k n) /\ List.length (le_bytes64 k n) = k.
Proof.
  revert n. induction k as [|k IH]; intros n; cbn [le_bytes64]; [split; [constructor|reflexivity]|].
  destruct (IH (n / 256)) as [H1 H2]. split; [constructor; [unfold is_byte; apply N.mod_lt; lia|exact H1]|cbn; lia].
Qed.

Lemma flat_bytes_ok l : is_bytes (flat_map (le_bytes64 8) l) /\ List.length (flat_map (le_bytes64 8) l) = (8 * List.length l)%nat.
Proof.
  induction l as [|n l [H1 H2]]; [split; [constructor|reflexivity]|]. cbn [flat_map]. destruct (le_bytes64_ok 8 n) as [B1 B2].
  split; [apply Forall_app; auto|]. rewrite app_length, B2, H2. cbn [List.length]. lia.
Qed.

Lemma compress_length h b t last : List.length (compress h b t last) = 8%nat.
Proof. unfold compress. rewrite map_length, seq_length. reflexivity. Qed.

Lemma blocks_length fuel h l t : fuel <> 0%nat -> List.length h = 8%nat -> List.length (blocks fuel h l t) = 8%nat.
Proof.
  revert h l t. induction fuel as [|k IH]; intros h l t Hf Hh; [congruence|]. cbn [blocks].
  destruct (List.length l <=? 128)%nat; [apply compress_length|].
  destruct k as [|k]; [apply compress_length|]. apply IH; [discriminate|apply compress_length].
Qed.

Lemma blake2b_ok out l : (out <= 64)%nat -> is_bytes (blake2b out l) /\ List.length (blake2b out l) = out.
Proof.
  intros Ho. unfold blake2b. set (h := match blake_iv with a :: r => _ | [] => _ end).
  assert (Hh : List.length h = 8%nat) by reflexivity.
  destruct (flat_bytes_ok (blocks (S (List.length l)) h l 0)) as [H1 H2]. rewrite blocks_length in H2 by (assumption || discriminate).
  split; [|rewrite firstn_length; lia]. rewrite <- (firstn_skipn out) in H1. apply Forall_app in H1. tauto.
Qed.

Lemma blake_hash_like : hash_like blake2_512.
Proof. intros l. destruct (blake2b_ok 64 l ltac:(lia)) as [H1 H2]. split; [exact H1|]. unfold blake2_512. lia. Qed.

Lemma address_faithful_with hash : hash_like hash -> base58_faithful (address_with hash).
Proof.
  intros Hh k a b p Ha Hb _ _ E. pose proof (address_text_ok hash k a p) as H1. rewrite E in H1.
  pose proof (address_text_ok hash k b p) as H2. exact (proj2 (address_text_unique hash _ _ _ _ _ Hh Ha Hb H1 H2)).
Qed.

(** ** Bit vectors *)

Fixpoint bits_of (s : string) : list bool :=
  match s with
  | EmptyString => []
  | String "0" r => false :: bits_of r
  | String "1" r => true :: bits_of r
  | String _ r => bits_of r
  end.

Lemma bits_of_app s t : bits_of (s ++ t) = (bits_of s ++ bits_of t)%list.
Proof.
  induction s as [|c s IH]; [reflexivity|]. cbn [append].
  assert (G : forall c u, bits_of (String c u) = (bits_of (String c "") ++ bits_of u)%list).
  { clear. intros [[] [] [] [] [] [] [] []] u; reflexivity. }
  rewrite G, IH, (G c s), app_assoc. reflexivity.
Qed.

Lemma bits_of_chars l : bits_of (bit_chars l) = l.
Proof. induction l as [|[] l IH]; cbn; rewrite ?IH; reflexivity. Qed.

Lemma bits_of_concat ls : bits_of (String.concat ", " (map bit_chars ls)) = List.concat ls.
Proof.
  induction ls as [|l ls IH]; [reflexivity|]. destruct ls as [|m ls].
  - cbn [List.concat]. rewrite app_nil_r. exact (bits_of_chars l).
  - change (String.concat ", " (map bit_chars (l :: m :: ls)))
      with (bit_chars l ++ ", " ++ String.concat ", " (map bit_chars (m :: ls)))%string.
    rewrite !bits_of_app, bits_of_chars, IH. reflexivity.
Qed.

Lemma groups_concat n : (0 < n)%nat -> forall fuel l, (List.length l <= fuel)%nat -> List.concat (groups fuel n l) = l.
Proof.
  intros Hn. induction fuel as [|k IH]; intros [|b l] Hl; cbn [groups]; try reflexivity; [cbn in Hl; lia|].
  cbn [List.concat]. rewrite IH; [apply firstn_skipn|]. rewrite skipn_length. cbn [List.length] in *. lia.
Qed.

Lemma bits_text_faithful : bits_faithful bits_text.
Proof.
  intros w o a b E. assert (G : forall l, bits_of (bits_text w o l) = l).
  { intros l. unfold bits_text. rewrite !bits_of_app, bits_of_concat, groups_concat; [cbn; apply app_nil_r| |lia]. destruct w; cbn; lia. }
  rewrite <- (G a), <- (G b), E. reflexivity.
Qed.
