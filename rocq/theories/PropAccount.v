(** C78: the entry of an account in the storage, key and value, is accepted and shown with exactly
    its address and numbers; and whatever is shown like that is the entry of this account. *)
From Coq Require Import Lia Relations.
From Verif Require Import Base Compact Types Indicators Decode Sign Balance Cards Storage Spec SpecStorage SpecCards SpecSee SpecFault SpecTransfer
  SpecAccount Api ApiStorage ProofBase ProofLeaf ProofWf ProofCor ProofTransfer PropTransfer CheckWf.
From Verif Require ProofStorage PropStorage PropSee PropTransferReal PropWhole PropReal Blake2b Twox Address PropAddress.
From Verif Require TestWestend TestPolkadot9430 TestPolkadot15 TestUnchecked15 TestAstar TestBifrost TestStatemint TestAcala2012 TestAcala2200.
Local Open Scope string_scope.
Local Open Scope list_scope.

(** ** Values *)

Lemma enc_list_cons A (f : A -> value -> option bytes) i ids v vs : enc_list f (i :: ids) (v :: vs) =
  match f i v, enc_list f ids vs with Some a, Some b => Some (a ++ b) | _, _ => None end.
Proof. reflexivity. Qed.
Lemma view_list_cons A B (f : A -> value -> option B) i ids v vs : view_list f (i :: ids) (v :: vs) =
  match f i v, view_list f ids vs with Some a, Some b => Some (a :: b) | _, _ => None end.
Proof. reflexivity. Qed.

Section Values.
Variable types : list ty.

Lemma made_number h id w n : number_type types w id -> fits w n = true ->
  exists x, made types h id (le_bytes (usize w) n) x /\ x_data x = DUInt w n (uint_labels h).
Proof.
  intros (t & Hl & Hc & Hd) Hf. exists (Ext (DUInt w n (uint_labels h)) (own_info t)). split; [|reflexivity].
  exists (VNum n). cbn [enc view]. rewrite Hl. unfold def_of. rewrite Hc, Hd. unfold guard. rewrite Hf. split; reflexivity.
Qed.

Fixpoint forms (fs : list field) (xs : list (ext pdata)) : list (fdata pdata) :=
  match fs, xs with
  | f :: fs', x :: xs' => field_form f (x_data x, x_info x) :: forms fs' xs'
  | _, _ => []
  end.

Inductive fields_made (h : hint) : list field -> list bytes -> list (ext pdata) -> Prop :=
| FM_nil : fields_made h [] [] []
| FM_cons f fs bs l x xs : made types (or_label h (field_label f)) (f_ty f) bs x -> fields_made h fs l xs ->
    fields_made h (f :: fs) (bs :: l) (x :: xs).

Lemma made_struct h id fs l xs : ordinary types id (TComposite fs) ->
  fields_made (pass_label h (List.length fs)) fs l xs ->
  exists x, made types h id (List.concat l) x /\ x_data x = DComposite (forms fs xs).
Proof.
  intros (t & Hl & Hc & Hd) Hf. remember (List.length fs) as n eqn:Hn.
  assert (G : exists vs, enc_list (fun f => enc types false (f_ty f)) fs vs = Some (List.concat l) /\
    view_list (fun f v => option_map (field_form f) (view types false (or_label (pass_label h n) (field_label f)) (f_ty f) v)) fs vs =
    Some (forms fs xs)).
  { clear - Hf. induction Hf as [|f fs bs l x xs (v & E & V) _ (vs & IE & IV)]; [exists []; split; reflexivity|].
    exists (v :: vs). rewrite enc_list_cons, view_list_cons, E, V, IE, IV. split; reflexivity. }
  destruct G as (vs & E & V). exists (Ext (DComposite (forms fs xs)) (own_info t)). split; [|reflexivity].
  exists (VStruct vs). cbn [enc view]. rewrite Hl. unfold def_of. rewrite Hc, Hd. cbn [andb]. split; [exact E|].
  rewrite <- Hn. rewrite V. reflexivity.
Qed.

Lemma u32_fits n : (n < 2 ^ 32)%N -> fits U32 n = true. Proof. apply N.ltb_lt. Qed.
Lemma u128_fits n : (n < 2 ^ 128)%N -> fits U128 n = true. Proof. apply N.ltb_lt. Qed.

Lemma made_wrapped_number id w n : wrapped_number types w id -> fits w n = true ->
  exists x f, made types HNone id (le_bytes (usize w) n) x /\ x_data x = DComposite [f] /\ fd_name f = None /\ x_data (fd_data f) = DUInt w n SuNone.
Proof.
  intros (f & Ho & Hn & Hlab & Ht) Hf. destruct (made_number HNone _ w n Ht Hf) as (x & M & X).
  destruct (made_struct HNone id [f] [le_bytes (usize w) n] [x] Ho) as (y & MY & Y).
  { constructor; [|constructor]. rewrite Hlab. exact M. }
  cbn [List.concat] in MY. rewrite app_nil_r in MY. exists y. eexists. split; [exact MY|]. split; [exact Y|]. split; [exact Hn|exact X].
Qed.

(** The numbers under their labels. *)
Lemma made_balances flags id a : balances_type types flags id -> account_in_range a ->
  exists x f1 f2 f3 f4, made types HNone id
      (le_bytes 16 (ac_free a) ++ le_bytes 16 (ac_reserved a) ++ le_bytes 16 (ac_third a) ++ le_bytes 16 (ac_fourth a)) x /\
    x_data x = DComposite [f1; f2; f3; f4] /\
    fd_name f1 = Some "free" /\ x_data (fd_data f1) = DUInt U128 (ac_free a) SuBalance /\
    fd_name f2 = Some "reserved" /\ x_data (fd_data f2) = DUInt U128 (ac_reserved a) SuBalance /\
    fd_name f3 = Some (if flags then "frozen" else "misc_frozen") /\ x_data (fd_data f3) = DUInt U128 (ac_third a) SuBalance /\
    fd_name f4 = Some (if flags then "flags" else "fee_frozen") /\
    (if flags then exists f, x_data (fd_data f4) = DComposite [f] /\ fd_name f = None /\ x_data (fd_data f) = DUInt U128 (ac_fourth a) SuNone
     else x_data (fd_data f4) = DUInt U128 (ac_fourth a) SuBalance).
Proof.
  intros (f1 & f2 & f3 & f4 & Ho & (N1 & L1 & T1) & (N2 & L2 & T2) & (N3 & L3 & T3) & H4) (_ & _ & _ & _ & K1 & K2 & K3 & K4).
  apply u128_fits in K1, K2, K3, K4.
  destruct (made_number HFieldBalance _ _ _ T1 K1) as (x1 & M1 & X1). destruct (made_number HFieldBalance _ _ _ T2 K2) as (x2 & M2 & X2).
  destruct (made_number HFieldBalance _ _ _ T3 K3) as (x3 & M3 & X3).
  assert (H : exists x4, made types (field_label f4) (f_ty f4) (le_bytes 16 (ac_fourth a)) x4 /\ f_name f4 = Some (if flags then "flags" else "fee_frozen") /\
    (if flags then exists f, x_data x4 = DComposite [f] /\ fd_name f = None /\ x_data (fd_data f) = DUInt U128 (ac_fourth a) SuNone
     else x_data x4 = DUInt U128 (ac_fourth a) SuBalance)).
  { destruct flags; destruct H4 as (N4 & L4 & T4); rewrite L4.
    - destruct (made_wrapped_number _ _ _ T4 K4) as (x & f & M & X). exists x. split; [exact M|]. split; [exact N4|]. exists f. exact X.
    - destruct (made_number HFieldBalance _ _ _ T4 K4) as (x & M & X). exists x. auto. }
  destruct H as (x4 & M4 & N4 & X4).
  destruct (made_struct HNone id [f1; f2; f3; f4]
    [le_bytes 16 (ac_free a); le_bytes 16 (ac_reserved a); le_bytes 16 (ac_third a); le_bytes 16 (ac_fourth a)] [x1; x2; x3; x4] Ho) as (y & MY & Y).
  { cbn [List.length pass_label Nat.leb]. repeat apply FM_cons; try apply FM_nil; cbn [or_label]; [rewrite L1; exact M1|rewrite L2; exact M2|rewrite L3; exact M3|exact M4]. }
  cbn [List.concat] in MY. rewrite app_nil_r in MY. exists y. do 4 eexists. split; [exact MY|]. split; [exact Y|].
  cbn [fd_name fd_data field_form fst snd x_data]. auto 12.
Qed.

Lemma made_account flags id a : account_type types flags id -> account_in_range a ->
  exists x, made types HNone id (account_bytes a) x /\ nothing_hidden (x_data x) /\
    forall b58 icon specs name bits, map (show bits) (card_ext b58 icon specs name x 0 true) = account_lines specs flags a.
Proof.
  intros (f1 & f2 & f3 & f4 & f5 & Ho & (N1 & L1 & T1) & (N2 & L2 & T2) & (N3 & L3 & T3) & (N4 & L4 & T4) & (N5 & L5 & T5)) Hok.
  destruct (made_balances _ _ a T5 Hok) as (x5 & g1 & g2 & g3 & g4 & M5 & X5 & GN1 & GX1 & GN2 & GX2 & GN3 & GX3 & GN4 & GX4).
  destruct Hok as (K1 & K2 & K3 & K4 & _). apply u32_fits in K1, K2, K3, K4.
  destruct (made_number HFieldNonce _ _ _ T1 K1) as (x1 & M1 & X1). destruct (made_number HNone _ _ _ T2 K2) as (x2 & M2 & X2).
  destruct (made_number HNone _ _ _ T3 K3) as (x3 & M3 & X3). destruct (made_number HNone _ _ _ T4 K4) as (x4 & M4 & X4).
  destruct (made_struct HNone id [f1; f2; f3; f4; f5]
    [le_bytes 4 (ac_nonce a); le_bytes 4 (ac_consumers a); le_bytes 4 (ac_providers a); le_bytes 4 (ac_sufficients a);
     le_bytes 16 (ac_free a) ++ le_bytes 16 (ac_reserved a) ++ le_bytes 16 (ac_third a) ++ le_bytes 16 (ac_fourth a)] [x1; x2; x3; x4; x5] Ho) as (y & MY & Y).
  { cbn [List.length pass_label Nat.leb]. repeat apply FM_cons; try apply FM_nil; cbn [or_label];
      [rewrite L1; exact M1|rewrite L2; exact M2|rewrite L3; exact M3|rewrite L4; exact M4|rewrite L5; exact M5]. }
  cbn [List.concat] in MY. rewrite app_nil_r in MY. exists y. split; [exact MY|]. cbn [uint_labels] in *.
  split.
  - unfold nothing_hidden. rewrite Y. cbn [forms everywhere fd_data field_form fst snd x_data]. rewrite X1, X2, X3, X4, X5. cbn [everywhere].
    rewrite GX1, GX2, GX3. destruct flags; [destruct GX4 as (f & GX4 & _ & GX)|]; rewrite GX4; cbn [everywhere]; try rewrite GX; repeat split.
  - intros b58 icon specs name bits. unfold card_ext, card_ext_with. rewrite Y. cbn [forms card List.length fd_name fd_data field_form fst snd x_data card_field_set].
    rewrite N1, N2, N3, N4, N5. unfold card_ext_with. cbn [x_data]. rewrite X1, X2, X3, X4, X5. cbn [card List.length card_field_set]. unfold card_ext_with.
    rewrite GN1, GN2, GN3, GN4, GX1, GX2, GX3.
    destruct flags; [destruct GX4 as (f & GX4 & GN & GX)|]; rewrite GX4; cbn [card]; try (rewrite GN; unfold card_unnamed_single_field; rewrite GX); reflexivity.
Qed.

Lemma made_who id who : recognised types id (SpRaw KAccountId32) -> is_bytes who -> List.length who = 32%nat ->
  exists x, made types HNone id who x /\ x_data x = DFixed KAccountId32 who.
Proof.
  intros (t & Hl & Hc) Hb Hn. exists (Ext (DFixed KAccountId32 who) (own_info t)). split; [|reflexivity].
  exists (VRaw who). cbn [enc view]. rewrite Hl, Hc. unfold guard. rewrite (is_bytesb_ok who Hb), Hn. split; reflexivity.
Qed.
End Values.

(** ** Entries *)

Lemma who_shown b58 icon specs name bits x who : x_data x = DFixed KAccountId32 who ->
  map (show bits) (card_ext b58 icon specs name x 0 true) = [("Id: " ++ b58 KAccountId32 who (base58prefix specs))%string].
Proof. intros H. unfold card_ext, card_ext_with. rewrite H. reflexivity. Qed.

(** Accepted and shown: the 32 bytes of the prefix, the hash of the account, the account itself. *)
Theorem c78_account : forall blake2_128 twox_64 types kt vt flags docs prefix who a,
  acyclic types -> recognised types kt (SpRaw KAccountId32) -> account_type types flags vt ->
  is_bytes prefix -> List.length prefix = 32%nat -> is_bytes who -> List.length who = 32%nat -> account_in_range a ->
  is_bytes (blake2_128 who) -> List.length (blake2_128 who) = 16%nat ->
  exists x y,
    storage_entry blake2_128 twox_64 types (prefix ++ blake2_128 who ++ who) (account_bytes a)
      (EntryMeta (EMap [Blake2_128Concat] kt vt) docs) = Ok (Storage (KSingle (KParsed x)) y (docs_text docs)) /\
    forall b58 icon specs name bits,
      map (show bits) (card_ext b58 icon specs name x 0 true) = [("Id: " ++ b58 KAccountId32 who (base58prefix specs))%string] /\
      map (show bits) (card_ext b58 icon specs name y 0 true) = account_lines specs flags a.
Proof.
  intros b2 t64 types kt vt flags docs prefix who a Ha Hk Hv Hp Hpl Hw Hwl Hok Hb Hbl.
  destruct (made_who types kt who Hk Hw Hwl) as (x & Mx & X). destruct (made_account types flags vt a Hv Hok) as (y & My & _ & Y).
  exists x, y. split.
  - apply (PropStorage.c29_parsed b2 t64 types Ha _ _ (EntryMeta (EMap [Blake2_128Concat] kt vt) docs)).
    + rewrite !is_bytes_app. auto.
    + apply (EM_map b2 t64 types _ _ _ _ _ prefix (b2 who ++ who)); [reflexivity|exact Hpl| |exact My].
      apply (MK_single b2 t64 types _ _ Blake2_128Concat); [reflexivity|]. apply (P_concat b2 t64 types _ _ b2 16%nat); [reflexivity|exact Hbl|exact Mx].
  - intros b58 icon specs name bits. split; [apply who_shown, X|apply Y].
Qed.
Print Assumptions c78_account.

(** Conversely: whatever is shown like that is this account with these numbers, byte by byte,
    except for the prefix, which is not looked at. *)
Theorem c78_only_account : forall blake2_128 twox_64 types kt vt flags docs who a,
  acyclic types -> told_apart types -> recognised types kt (SpRaw KAccountId32) -> account_type types flags vt ->
  is_bytes who -> List.length who = 32%nat -> account_in_range a ->
  forall b58 icon specs name bits key value x y d,
  base58_faithful b58 -> bits_faithful bits -> (decimals specs < 256)%N -> is_bytes key -> is_bytes value ->
  storage_entry blake2_128 twox_64 types key value (EntryMeta (EMap [Blake2_128Concat] kt vt) docs) =
    Ok (Storage (KSingle (KParsed x)) y d) ->
  map (show bits) (card_ext b58 icon specs name x 0 true) = [("Id: " ++ b58 KAccountId32 who (base58prefix specs))%string] ->
  map (show bits) (card_ext b58 icon specs name y 0 true) = account_lines specs flags a ->
  skipn 32 key = blake2_128 who ++ who /\ value = account_bytes a.
Proof.
  intros b2 t64 types kt vt flags docs who a Ha Hap Hk Hv Hw Hwl Hok b58 icon specs name bits key value x y d F1 F2 Hd Bk Bv H E1 E2.
  destruct (made_who types kt who Hk Hw Hwl) as (x' & Mx & X). destruct (made_account types flags vt a Hv Hok) as (y' & My & Hy & Y).
  assert (W : forall id bs z, encodes types id bs z -> decode_all types bs id = Ok z) by (intros id bs z; apply ProofStorage.encodes_whole; exact Ha).
  assert (B : forall id bs z, encodes types id bs z -> is_bytes bs) by (intros id bs z (v & E & _); eapply enc_bytes; exact E).
  destruct (PropStorage.c28_single_checked b2 t64 types key value _ kt vt docs _ y d Bk Bv H) as (h & Hh & Hpiece). injection Hh as Hh. subst h.
  apply (ProofStorage.storage_sound b2 t64) in H; [|exact Bk|exact Bv]. destruct H as [H _]. cbn [en_ty st_key st_value] in H.
  inversion H as [|hs' kt' vt' prefix rest k x0 Hkey Hl Hm He]; subst hs' kt' vt' x0 k. split.
  - remember (skipn 32 key) as after eqn:Hafter. clear Hafter.
    inversion Hpiece as [|f n content z Hc Hlen Hz Hcz|bs z Hc]; [|discriminate Hc]. injection Hc as <- <-.
    assert (Ew : content = who); [|rewrite Ew; reflexivity].
    symmetry. apply (PropSee.c47_blob b58 icon specs name bits types _ _ kt x' x 0%nat true F1 F2 Hd Hap Hw).
    all: try (eapply B; eassumption); try (apply W; assumption); try (rewrite (who_shown _ _ _ _ _ _ _ X); symmetry; exact E1); rewrite X; repeat split.
  - symmetry. apply (PropSee.c47_blob b58 icon specs name bits types _ _ vt y' y 0%nat true F1 F2 Hd Hap).
    all: try (eapply B; eassumption); try (apply W; assumption); try assumption. rewrite Y. symmetry. exact E2.
Qed.
Print Assumptions c78_only_account.

(** ** The chains whose metadata are in the repository *)

Definition plainb (types : list ty) (w : uwidth) (id : N) : bool :=
  ordinaryb types id (fun d => match d with TPrimitive (PrU w') => width_eqb w' w | _ => false end).
Definition no_labelb (f : field) : bool := match field_label f with HNone => true | _ => false end.
Definition balance_labelb (f : field) : bool := match field_label f with HFieldBalance => true | _ => false end.
Definition nonce_labelb (f : field) : bool := match field_label f with HFieldNonce => true | _ => false end.
Definition wrapped_numberb (types : list ty) (w : uwidth) (id : N) : bool :=
  ordinaryb types id (fun d => match d with TComposite [f] => noname f && no_labelb f && plainb types w (f_ty f) | _ => false end).
Definition balances_typeb (types : list ty) (flags : bool) (id : N) : bool :=
  ordinaryb types id (fun d => match d with
    | TComposite [f1; f2; f3; f4] =>
        (named f1 "free" && balance_labelb f1 && plainb types U128 (f_ty f1)) &&
        (named f2 "reserved" && balance_labelb f2 && plainb types U128 (f_ty f2)) &&
        (named f3 (if flags then "frozen" else "misc_frozen") && balance_labelb f3 && plainb types U128 (f_ty f3)) &&
        (if flags then named f4 "flags" && no_labelb f4 && wrapped_numberb types U128 (f_ty f4)
         else named f4 "fee_frozen" && balance_labelb f4 && plainb types U128 (f_ty f4))
    | _ => false end).
Definition account_typeb (types : list ty) (flags : bool) (id : N) : bool :=
  ordinaryb types id (fun d => match d with
    | TComposite [f1; f2; f3; f4; f5] =>
        (named f1 "nonce" && nonce_labelb f1 && plainb types U32 (f_ty f1)) &&
        (named f2 "consumers" && no_labelb f2 && plainb types U32 (f_ty f2)) &&
        (named f3 "providers" && no_labelb f3 && plainb types U32 (f_ty f3)) &&
        (named f4 "sufficients" && no_labelb f4 && plainb types U32 (f_ty f4)) &&
        (named f5 "data" && no_labelb f5 && balances_typeb types flags (f_ty f5))
    | _ => false end).

Lemma no_label_ok f : no_labelb f = true -> field_label f = HNone.
Proof. unfold no_labelb. destruct (field_label f); try discriminate. reflexivity. Qed.
Lemma balance_label_ok f : balance_labelb f = true -> field_label f = HFieldBalance.
Proof. unfold balance_labelb. destruct (field_label f); try discriminate. reflexivity. Qed.
Lemma nonce_label_ok f : nonce_labelb f = true -> field_label f = HFieldNonce.
Proof. unfold nonce_labelb. destruct (field_label f); try discriminate. reflexivity. Qed.

Section Checks.
Variable types : list ty.
Lemma plainb_ok w id : plainb types w id = true -> number_type types w id.
Proof.
  intros H. apply ordinaryb_ok in H. destruct H as (d & Ho & H). destruct d as [| | | | |p| |]; try discriminate. destruct p as [| | |w'| | |]; try discriminate.
  apply width_ok in H. subst w'. exact Ho.
Qed.
Lemma is_ok f name lb label pb (P : N -> Prop) : (lb f = true -> field_label f = label) -> (forall j, pb j = true -> P j) ->
  named f name && lb f && pb (f_ty f) = true -> field_is f name label P.
Proof. intros H1 H2 H. apply andb_prop in H. destruct H as [H Hp]. apply andb_prop in H. destruct H as [Hn Hl]. exact (conj (named_ok _ _ Hn) (conj (H1 Hl) (H2 _ Hp))). Qed.
Lemma wrapped_numberb_ok w id : wrapped_numberb types w id = true -> wrapped_number types w id.
Proof.
  intros H. apply ordinaryb_ok in H. destruct H as (d & Ho & H). destruct d as [[|f [|] ]| | | | | | |]; try discriminate.
  apply andb_prop in H. destruct H as [H Hp]. apply andb_prop in H. destruct H as [Hn Hl].
  exists f. exact (conj Ho (conj (noname_ok _ Hn) (conj (no_label_ok _ Hl) (plainb_ok _ _ Hp)))).
Qed.
Lemma balances_typeb_ok flags id : balances_typeb types flags id = true -> balances_type types flags id.
Proof.
  intros H. apply ordinaryb_ok in H. destruct H as (d & Ho & H). destruct d as [[|f1 [|f2 [|f3 [|f4 [|] ] ] ] ]| | | | | | |]; try discriminate.
  apply andb_prop in H. destruct H as [H H4]. apply andb_prop in H. destruct H as [H H3]. apply andb_prop in H. destruct H as [H1 H2].
  exists f1, f2, f3, f4. split; [exact Ho|].
  split; [exact (is_ok _ _ _ _ _ _ (balance_label_ok f1) (plainb_ok U128) H1)|].
  split; [exact (is_ok _ _ _ _ _ _ (balance_label_ok f2) (plainb_ok U128) H2)|].
  split; [exact (is_ok _ _ _ _ _ _ (balance_label_ok f3) (plainb_ok U128) H3)|].
  destruct flags; [exact (is_ok _ _ _ _ _ _ (no_label_ok f4) (wrapped_numberb_ok U128) H4)|exact (is_ok _ _ _ _ _ _ (balance_label_ok f4) (plainb_ok U128) H4)].
Qed.
Lemma account_typeb_ok flags id : account_typeb types flags id = true -> account_type types flags id.
Proof.
  intros H. apply ordinaryb_ok in H. destruct H as (d & Ho & H). destruct d as [[|f1 [|f2 [|f3 [|f4 [|f5 [|] ] ] ] ] ]| | | | | | |]; try discriminate.
  apply andb_prop in H. destruct H as [H H5]. apply andb_prop in H. destruct H as [H H4].
  apply andb_prop in H. destruct H as [H H3]. apply andb_prop in H. destruct H as [H1 H2].
  exists f1, f2, f3, f4, f5. split; [exact Ho|].
  split; [exact (is_ok _ _ _ _ _ _ (nonce_label_ok f1) (plainb_ok U32) H1)|].
  split; [exact (is_ok _ _ _ _ _ _ (no_label_ok f2) (plainb_ok U32) H2)|].
  split; [exact (is_ok _ _ _ _ _ _ (no_label_ok f3) (plainb_ok U32) H3)|].
  split; [exact (is_ok _ _ _ _ _ _ (no_label_ok f4) (plainb_ok U32) H4)|].
  exact (is_ok _ _ _ _ _ _ (no_label_ok f5) (balances_typeb_ok flags) H5).
Qed.
End Checks.

(** The entry Account of the pallet System: a map by hash and key from type 0, the accounts, to
    type 3. *)
Definition account_entry (docs : list string) : entry_meta := EntryMeta (EMap [Blake2_128Concat] 0 3) docs.
Definition ascii_bytes (s : string) : bytes := map Ascii.N_of_ascii (list_ascii_of_string s).
Definition account_prefix : bytes := Twox.twox_128 (ascii_bytes "System") ++ Twox.twox_128 (ascii_bytes "Account").

Section Real.
Variable types : list ty.
Variable flags : bool.
Local Notation entry key value docs := (storage_entry Blake2b.blake2_128 Twox.twox_64 types key value (account_entry docs)).

(** Whatever is stored for an account is seen. *)
Definition accounts_shown : Prop := forall docs who a, is_bytes who -> List.length who = 32%nat -> account_in_range a ->
  exists x y,
    entry (account_prefix ++ Blake2b.blake2_128 who ++ who) (account_bytes a) docs = Ok (Storage (KSingle (KParsed x)) y (docs_text docs)) /\
    forall b58 icon specs name bits,
      map (show bits) (card_ext b58 icon specs name x 0 true) = [("Id: " ++ b58 KAccountId32 who (base58prefix specs))%string] /\
      map (show bits) (card_ext b58 icon specs name y 0 true) = account_lines specs flags a.

(** Whatever is seen for an account is stored. *)
Definition shown_accounts : Prop := forall docs who a, is_bytes who -> List.length who = 32%nat -> account_in_range a ->
  forall icon specs name key value x y d,
  (decimals specs < 256)%N -> is_bytes key -> is_bytes value ->
  entry key value docs = Ok (Storage (KSingle (KParsed x)) y d) ->
  map (show Address.bits_text) (card_ext Address.address icon specs name x 0 true) = [("Id: " ++ Address.address KAccountId32 who (base58prefix specs))%string] ->
  map (show Address.bits_text) (card_ext Address.address icon specs name y 0 true) = account_lines specs flags a ->
  skipn 32 key = Blake2b.blake2_128 who ++ who /\ value = account_bytes a.

Hypothesis usables : forall id, (id < N.of_nat (List.length types))%N -> usable types id.
Hypothesis apart : told_apart types.
Hypothesis is_who : recognisedb types 0 raw_account = true.
Hypothesis is_account : account_typeb types flags 3 = true.

Lemma prefix_ok : is_bytes account_prefix /\ List.length account_prefix = 32%nat.
Proof. vm_compute. split; [|reflexivity]. repeat constructor. Qed.

Lemma really_shown : accounts_shown /\ shown_accounts.
Proof.
  pose proof (PropTransferReal.usable_acyclic types usables) as Ha.
  pose proof (recognisedb_ok types 0 _ _ account_ok is_who) as Hw. pose proof (account_typeb_ok types flags 3 is_account) as Ht.
  destruct PropAddress.c67_blake as [_ Hb]. destruct PropAddress.c67_formats as [F1 F2]. destruct prefix_ok as [P1 P2]. split.
  - intros docs who a W1 W2 R. destruct (Hb who). apply c78_account; assumption.
  - intros docs who a W1 W2 R icon specs name key value x y d. apply (c78_only_account _ Twox.twox_64 types 0 3 flags docs who a); assumption.
Qed.
End Real.

Lemma westend_who : recognisedb TestWestend.md_types 0 raw_account = true. Proof. vm_compute. reflexivity. Qed.
Lemma westend_account : account_typeb TestWestend.md_types false 3 = true. Proof. vm_compute. reflexivity. Qed.
Theorem c78_westend : accounts_shown TestWestend.md_types false /\ shown_accounts TestWestend.md_types false.
Proof. exact (really_shown _ _ PropWhole.westend_usable PropSee.westend_told_apart westend_who westend_account). Qed.
Print Assumptions c78_westend.

Lemma polkadot9430_who : recognisedb TestPolkadot9430.md_types 0 raw_account = true. Proof. vm_compute. reflexivity. Qed.
Lemma polkadot9430_account : account_typeb TestPolkadot9430.md_types true 3 = true. Proof. vm_compute. reflexivity. Qed.
Theorem c78_polkadot9430 : accounts_shown TestPolkadot9430.md_types true /\ shown_accounts TestPolkadot9430.md_types true.
Proof. exact (really_shown _ _ PropReal.polkadot9430_usable PropTransferReal.polkadot9430_apart polkadot9430_who polkadot9430_account). Qed.
Print Assumptions c78_polkadot9430.

Lemma polkadot15_who : recognisedb TestPolkadot15.md_types 0 raw_account = true. Proof. vm_compute. reflexivity. Qed.
Lemma polkadot15_account : account_typeb TestPolkadot15.md_types true 3 = true. Proof. vm_compute. reflexivity. Qed.
Theorem c78_polkadot15 : accounts_shown TestPolkadot15.md_types true /\ shown_accounts TestPolkadot15.md_types true.
Proof. exact (really_shown _ _ PropReal.polkadot15_usable PropTransferReal.polkadot15_apart polkadot15_who polkadot15_account). Qed.
Print Assumptions c78_polkadot15.

Lemma polkadot1003003_who : recognisedb TestUnchecked15.md_types 0 raw_account = true. Proof. vm_compute. reflexivity. Qed.
Lemma polkadot1003003_account : account_typeb TestUnchecked15.md_types true 3 = true. Proof. vm_compute. reflexivity. Qed.
Theorem c78_polkadot1003003 : accounts_shown TestUnchecked15.md_types true /\ shown_accounts TestUnchecked15.md_types true.
Proof. exact (really_shown _ _ PropReal.unchecked15_usable PropTransferReal.polkadot1003003_apart polkadot1003003_who polkadot1003003_account). Qed.
Print Assumptions c78_polkadot1003003.

Lemma astar_who : recognisedb TestAstar.md_types 0 raw_account = true. Proof. vm_compute. reflexivity. Qed.
Lemma astar_account : account_typeb TestAstar.md_types true 3 = true. Proof. vm_compute. reflexivity. Qed.
Theorem c78_astar : accounts_shown TestAstar.md_types true /\ shown_accounts TestAstar.md_types true.
Proof. exact (really_shown _ _ PropReal.astar_usable PropTransferReal.astar_apart astar_who astar_account). Qed.
Print Assumptions c78_astar.

Lemma bifrost_who : recognisedb TestBifrost.md_types 0 raw_account = true. Proof. vm_compute. reflexivity. Qed.
Lemma bifrost_account : account_typeb TestBifrost.md_types true 3 = true. Proof. vm_compute. reflexivity. Qed.
Theorem c78_bifrost : accounts_shown TestBifrost.md_types true /\ shown_accounts TestBifrost.md_types true.
Proof. exact (really_shown _ _ PropReal.bifrost_usable PropTransferReal.bifrost_apart bifrost_who bifrost_account). Qed.
Print Assumptions c78_bifrost.

Lemma statemint_who : recognisedb TestStatemint.md_types 0 raw_account = true. Proof. vm_compute. reflexivity. Qed.
Lemma statemint_account : account_typeb TestStatemint.md_types true 3 = true. Proof. vm_compute. reflexivity. Qed.
Theorem c78_statemint : accounts_shown TestStatemint.md_types true /\ shown_accounts TestStatemint.md_types true.
Proof. exact (really_shown _ _ PropWhole.statemint_usable PropTransferReal.statemint_apart statemint_who statemint_account). Qed.
Print Assumptions c78_statemint.

Lemma acala2012_apart : told_apart TestAcala2012.md_types. Proof. apply PropSee.apart_check_ok. vm_compute. reflexivity. Qed.
Lemma acala2012_who : recognisedb TestAcala2012.md_types 0 raw_account = true. Proof. vm_compute. reflexivity. Qed.
Lemma acala2012_account : account_typeb TestAcala2012.md_types false 3 = true. Proof. vm_compute. reflexivity. Qed.
Theorem c78_acala2012 : accounts_shown TestAcala2012.md_types false /\ shown_accounts TestAcala2012.md_types false.
Proof. exact (really_shown _ _ PropReal.acala2012_usable acala2012_apart acala2012_who acala2012_account). Qed.
Print Assumptions c78_acala2012.

Lemma acala2200_apart : told_apart TestAcala2200.md_types. Proof. apply PropSee.apart_check_ok. vm_compute. reflexivity. Qed.
Lemma acala2200_who : recognisedb TestAcala2200.md_types 0 raw_account = true. Proof. vm_compute. reflexivity. Qed.
Lemma acala2200_account : account_typeb TestAcala2200.md_types true 3 = true. Proof. vm_compute. reflexivity. Qed.
Theorem c78_acala2200 : accounts_shown TestAcala2200.md_types true /\ shown_accounts TestAcala2200.md_types true.
Proof. exact (really_shown _ _ PropReal.acala2200_usable acala2200_apart acala2200_who acala2200_account). Qed.
Print Assumptions c78_acala2200.

(** A concrete account (Bob on Polkadot): its key is the well-known one, it is in range, and the
    lines are these; with another hash, or with a byte less, the entry is rejected. *)
Definition bob : bytes := PropTransferReal.bob.
Definition bobs : account := Account 7 0 1 0 1234567890123 0 5000000000 (2 ^ 127).
Definition bob_key : bytes := account_prefix ++ Blake2b.blake2_128 bob ++ bob.
Definition entry_error (key value : bytes) : option storage_err :=
  match storage_entry Blake2b.blake2_128 Twox.twox_64 TestPolkadot15.md_types key value (account_entry []) with Err e => Some e | _ => None end.

Example c78_example : is_bytes bob /\ List.length bob = 32%nat /\ account_in_range bobs /\
  hex_encode bob_key =
    "26aa394eea5630e07c48ae0c9558cef7b99d880ec681799c0cf30e8886371da94f9aea1afa791265fae359272badc1cf8eaf04151687736326c9fea17e25fc5287613693c912909cb226aa4794f26a48" /\
  hex_encode (account_bytes bobs) =
    "07000000000000000100000000000000cb04fb711f01000000000000000000000000000000000000000000000000000000f2052a01000000000000000000000000000000000000000000000000000080" /\
  account_lines (ShortSpecs 0 10 "DOT") true bobs =
  ["Struct: 5 field(s)";
   "  Field Name: nonce";
   "    Nonce: 7";
   "  Field Name: consumers";
   "    u32: 0";
   "  Field Name: providers";
   "    u32: 1";
   "  Field Name: sufficients";
   "    u32: 0";
   "  Field Name: data";
   "    Struct: 4 field(s)";
   "      Field Name: free";
   "        Balance: 123.4567890123 DOT";
   "      Field Name: reserved";
   "        Balance: 0.0 nDOT";
   "      Field Name: frozen";
   "        Balance: 500.0000000 mDOT";
   "      Field Name: flags";
   "        u128: 170141183460469231731687303715884105728"] /\
  entry_error bob_key (account_bytes bobs) = None /\
  entry_error (account_prefix ++ Blake2b.blake2_128 (7 :: bob)%N ++ bob) (account_bytes bobs) = Some KeyPartHashMismatch /\
  entry_error (bob_key ++ [0]%N) (account_bytes bobs) = Some KeyPartsUnused /\
  entry_error bob_key (firstn 79 (account_bytes bobs)) = Some (ParsingValue (PBuffer (DataTooShort 64 16))) /\
  entry_error bob_key (account_bytes bobs ++ [0]%N) = Some (ParsingValue (SomeDataNotUsedBlob 80)).
Proof.
  split; [apply PropTransferReal.bytes_checked; reflexivity|]. split; [reflexivity|]. split; [vm_compute; auto 12|].
  split; [vm_compute; reflexivity|]. split; [vm_compute; reflexivity|]. split; [vm_compute; reflexivity|].
  split; [vm_compute; reflexivity|]. split; [vm_compute; reflexivity|]. split; [vm_compute; reflexivity|]. split; vm_compute; reflexivity.
Qed.
