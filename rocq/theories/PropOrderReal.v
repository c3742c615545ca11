(** C83 for chains whose metadata is in the repository. *)
From Coq Require Import Lia.
From Verif Require Import Base Compact Types Indicators Decode Sign Meta Balance Cards Spec SpecCards SpecSee SpecFault SpecTransfer SpecAccount SpecOrder Api ApiSign
  PropTransfer PropTransferReal PropOrder.
From Verif Require TestWestend TestPolkadot9430 TestPolkadot15 TestUnchecked15 TestAstar TestBifrost TestStatemint Address PropWhole PropReal PropSee PropAccount PropBatch.
Local Open Scope string_scope.
Local Open Scope list_scope.

(** ** Checking *)

Definition no_label (h : hint) : bool := match h with HNone => true | _ => false end.
Definition bytesb (l : bytes) : bool := forallb (fun b => (b <? 256)%N) l.
Definition numberb (types : list ty) (packed : bool) (w : uwidth) (id : N) : bool := if packed then compactb types w id else PropAccount.plainb types w id.
Definition elementb (types : list ty) (id : N) : bool :=
  recognisedb types id raw_account ||
  match lookup types id with
  | Some t =>
      match classify t, t_def t with
      | SpPlain, TVariant _ | SpItem ItCall, TVariant _ => true
      | SpPlain, TComposite (_ :: _ :: _) | SpPlain, TTuple _ => true
      | _, _ => false
      end
  | None => false
  end.

Definition is_raw (k : fixed_kind) (s : special) : bool :=
  match s, k with
  | SpRaw KH160, KH160 | SpRaw KH512, KH512 | SpRaw KAccountId32, KAccountId32 | SpRaw KPubEd25519, KPubEd25519 | SpRaw KPubSr25519, KPubSr25519
  | SpRaw KPubEcdsa, KPubEcdsa | SpRaw KSigEd25519, KSigEd25519 | SpRaw KSigSr25519, KSigSr25519 | SpRaw KSigEcdsa, KSigEcdsa => true
  | _, _ => false
  end.
Definition is_part (k : per_kind) (s : special) : bool :=
  match s, k with
  | SpPer KPerU16, KPerU16 | SpPer KPercent, KPercent | SpPer KPermill, KPermill | SpPer KPerbill, KPerbill | SpPer KPerquintill, KPerquintill => true
  | _, _ => false
  end.
Lemma is_raw_ok k x : is_raw k x = true -> x = SpRaw k.
Proof. destruct x as [|k'| | | | |]; try discriminate. destruct k', k; try discriminate; reflexivity. Qed.
Lemma is_part_ok k x : is_part k x = true -> x = SpPer k.
Proof. destruct x as [| | | |k'| |]; try discriminate. destruct k', k; try discriminate; reflexivity. Qed.

Section Check.
Variable types : list ty.

Fixpoint allowedb (label : hint) (id : N) (a : arg) {struct a} : bool :=
  let all := fix all (fs : list field) (l : list (string * arg)) {struct l} : bool :=
    match fs, l with
    | [], [] => true
    | f :: fs', (name, a) :: l' => PropTransfer.named f name && allowedb (field_label f) (f_ty f) a && all fs' l'
    | _, _ => false
    end in
  let unnamed := fix unnamed (fs : list field) (l : list arg) {struct l} : bool :=
    match fs, l with
    | [], [] => true
    | f :: fs', a :: l' => noname f && allowedb (field_label f) (f_ty f) a && unnamed fs' l'
    | _, _ => false
    end in
  let each := fix each (ids : list N) (l : list arg) {struct l} : bool :=
    match ids, l with
    | [], [] => true
    | i :: ids', a :: l' => match lookup types i with Some t => allowedb (path_label t) i a | None => false end && each ids' l'
    | _, _ => false
    end in
  match a with
  | Account who => recognisedb types id raw_account && bytesb who && Nat.eqb (List.length who) 32
  | Hash h => no_label label && recognisedb types id is_hash && bytesb h && Nat.eqb (List.length h) 32
  | Money packed n => is_balance label && numberb types packed U128 id && (n <? 2 ^ 128)%N
  | Number packed w n => no_label label && numberb types packed w id && (n <? 2 ^ (8 * N.of_nat (usize w)))%N
  | Truth b => ordinaryb types id (fun d => match d with TPrimitive PrBool => true | _ => false end)
  | Bytes l => ordinaryb types id (fun d => match d with TSequence el => PropAccount.plainb types U8 el | _ => false end) &&
      bytesb l && (N.of_nat (List.length l) <? 2 ^ 32)%N
  | Fixed l => ordinaryb types id (fun d => match d with TArray n el => (n =? N.of_nat (List.length l))%N && PropAccount.plainb types U8 el | _ => false end) && bytesb l
  | Choice n name => ordinaryb types id (fun d => match d with
      | TVariant vs => match variantb vs n name with Some [] => true | _ => false end | _ => false end) && (n <? 256)%N
  | Given n name a => ordinaryb types id (fun d => match d with
      | TVariant vs => match variantb vs n name with Some [f] => noname f && allowedb (field_label f) (f_ty f) a | _ => false end | _ => false end) && (n <? 256)%N
  | Struct l => no_label label && ordinaryb types id (fun d => match d with TComposite fs => Nat.leb 2 (List.length fs) && all fs l | _ => false end)
  | Several l => ordinaryb types id (fun d => match d with
      | TSequence el => elementb types el && (N.of_nat (List.length l) <? 2 ^ 32)%N &&
          (fix each (l : list arg) : bool := match l with [] => true | a :: l' => allowedb HNone el a && each l' end) l
      | _ => false end)
  | Order i j pallet name l =>
      match lookup types id with
      | Some t => is_call_item (classify t) &&
          match t_def t with
          | TVariant pallets =>
              match by_index pallets i with
              | Some p => String.eqb (v_name p) pallet &&
                  match v_fields p with
                  | [f] =>
                      match lookup types (f_ty f) with
                      | Some inner => is_call_item (classify inner) &&
                          match t_def inner with
                          | TVariant items =>
                              match by_index items j with
                              | Some item => String.eqb (v_name item) name && all (v_fields item) l && (i <? 256)%N && (j <? 256)%N
                              | None => false
                              end
                          | _ => false
                          end
                      | None => false
                      end
                  | _ => false
                  end
              | None => false
              end
          | _ => false
          end
      | None => false
      end
  | Made n name l => ordinaryb types id (fun d => match d with
      | TVariant vs => match variantb vs n name with Some fs => all fs l | None => false end | _ => false end) && (n <? 256)%N &&
      match l with [] => false | _ => true end
  | Inside a => ordinaryb types id (fun d => match d with
      | TComposite [f] => noname f && allowedb (match label with HNone => field_label f | _ => label end) (f_ty f) a | _ => false end)
  | Numbered n name l => ordinaryb types id (fun d => match d with
      | TVariant vs => match variantb vs n name with Some fs => unnamed fs l | None => false end | _ => false end) && (n <? 256)%N &&
      Nat.leb 2 (List.length l)
  | Tuple l => no_label label && ordinaryb types id (fun d => match d with TTuple ids => each ids l | _ => false end) &&
      match l with [] => false | _ => true end
  | Raw k l => recognisedb types id (is_raw k) && negb (raw_account (SpRaw k)) && bytesb l && Nat.eqb (List.length l) (raw_len k)
  | Part packed k n => (if packed then ordinaryb types id (fun d => match d with TCompact j => recognisedb types j (is_part k) | _ => false end)
      else recognisedb types id (is_part k)) && (n <? whole k)%N
  | Packed w n => no_label label && ordinaryb types id (fun d => match d with
      | TCompact j => ordinaryb types j (fun d => match d with
          | TComposite [f] => noname f && PropAccount.no_labelb f && PropAccount.plainb types w (f_ty f)
          | _ => false end)
      | _ => false end) && (n <? 2 ^ (8 * N.of_nat (usize w)))%N
  end.

Lemma no_label_ok h : no_label h = true -> h = HNone. Proof. destruct h; try discriminate. reflexivity. Qed.
Lemma is_balance_ok h : is_balance h = true -> h = HFieldBalance. Proof. destruct h; try discriminate. reflexivity. Qed.
Lemma bytesb_ok l : bytesb l = true -> is_bytes l.
Proof. unfold bytesb. rewrite forallb_forall. intros H. apply Forall_forall. intros b Hb. apply N.ltb_lt, (H b Hb). Qed.
Lemma numberb_ok packed w id : numberb types packed w id = true -> if packed then compact_number types w id else number_type types w id.
Proof. destruct packed; [apply compactb_ok|apply PropAccount.plainb_ok]. Qed.
Lemma elementb_ok id : elementb types id = true -> list_element types id.
Proof.
  unfold elementb. intros H. apply orb_prop in H. destruct H as [H|H].
  - left. exact (recognisedb_ok types id raw_account _ account_ok H).
  - destruct (lookup types id) as [t|] eqn:E; [|discriminate]. right. destruct (classify t) as [| | | | | |item] eqn:Hc; try discriminate.
    + destruct (t_def t) as [ [|f [|g fs] ]|l| | |ids| | |] eqn:Hd; try discriminate; [right; right; left; exists f, g, fs, t; auto|left; exists l, t; auto|right; right; right; exists ids, t; auto].
    + destruct item; [|discriminate]. destruct (t_def t) as [|l| | | | | |] eqn:Hd; try discriminate. right. left. exists t, l. auto.
Qed.

Definition allowedb_all (fs : list field) : list (string * arg) -> bool :=
  (fix all (fs : list field) (l : list (string * arg)) {struct l} : bool :=
    match fs, l with
    | [], [] => true
    | f :: fs', (name, a) :: l' => PropTransfer.named f name && allowedb (field_label f) (f_ty f) a && all fs' l'
    | _, _ => false
    end) fs.

Lemma all_ok l : Forall (fun x => forall h id, allowedb h id (snd x) = true -> allowed types h id (snd x)) l ->
  forall fs, allowedb_all fs l = true -> PropOrder.named types fs l.
Proof.
  induction 1 as [|[n a] l Ha _ IH]; intros [|f fs] H; try discriminate H; [exact I|]. cbn [allowedb_all] in H. fold (allowedb_all fs l) in H.
  apply andb_prop in H. destruct H as [H1 H3]. apply andb_prop in H1. destruct H1 as [H1 H2].
  refine (conj (named_ok f n H1) (conj (Ha _ _ H2) _)). apply IH. exact H3.
Qed.

Definition allowedb_unnamed (fs : list field) : list arg -> bool :=
  (fix unnamed (fs : list field) (l : list arg) {struct l} : bool :=
    match fs, l with
    | [], [] => true
    | f :: fs', a :: l' => noname f && allowedb (field_label f) (f_ty f) a && unnamed fs' l'
    | _, _ => false
    end) fs.

Lemma unnamed_ok l : Forall (fun x => forall h id, allowedb h id x = true -> allowed types h id x) l ->
  forall fs, allowedb_unnamed fs l = true -> PropOrder.unnamed types fs l.
Proof.
  induction 1 as [|a l Ha _ IH]; intros [|f fs] H; try discriminate H; [exact I|]. cbn [allowedb_unnamed] in H. fold (allowedb_unnamed fs l) in H.
  apply andb_prop in H. destruct H as [H1 H3]. apply andb_prop in H1. destruct H1 as [H1 H2].
  refine (conj (noname_ok f H1) (conj (Ha _ _ H2) _)). apply IH. exact H3.
Qed.

Definition allowedb_each (ids : list N) : list arg -> bool :=
  (fix each (ids : list N) (l : list arg) {struct l} : bool :=
    match ids, l with
    | [], [] => true
    | i :: ids', a :: l' => match lookup types i with Some t => allowedb (path_label t) i a | None => false end && each ids' l'
    | _, _ => false
    end) ids.

Lemma each_ok l : Forall (fun x => forall h id, allowedb h id x = true -> allowed types h id x) l ->
  forall ids, allowedb_each ids l = true -> PropOrder.each types ids l.
Proof.
  induction 1 as [|a l Ha _ IH]; intros [|i ids] H; try discriminate H; [exact I|]. cbn [allowedb_each] in H. fold (allowedb_each ids l) in H.
  apply andb_prop in H. destruct H as [H1 H3]. destruct (lookup types i) as [t|] eqn:Ht; [|discriminate H1].
  split; [exists t; exact (conj Ht (Ha _ _ H1))|]. apply IH. exact H3.
Qed.

Lemma allowedb_ok a : forall h id, allowedb h id a = true -> allowed types h id a.
Proof.
  induction a as [who|x|packed n|packed w n|b|l|l|n name|n name a IH|l IH|l IH|i j pallet name l IH|n name l IH|a IH|n name l IH|l IH|k l|packed k n|w n] using arg_induction; intros h id H; cbn [allowedb] in H.
  - apply andb_prop in H. destruct H as [H H3]. apply andb_prop in H. destruct H as [H1 H2]. apply Nat.eqb_eq in H3.
    exact (conj (recognisedb_ok types id raw_account _ account_ok H1) (conj (bytesb_ok _ H2) H3)).
  - apply andb_prop in H. destruct H as [H H3]. apply andb_prop in H. destruct H as [H H2]. apply andb_prop in H. destruct H as [H0 H1]. apply Nat.eqb_eq in H3.
    exact (conj (no_label_ok h H0) (conj (recognisedb_ok types id is_hash _ hash_ok H1) (conj (bytesb_ok _ H2) H3))).
  - apply andb_prop in H. destruct H as [H H3]. apply andb_prop in H. destruct H as [H1 H2]. apply N.ltb_lt in H3.
    exact (conj (is_balance_ok h H1) (conj (numberb_ok packed U128 id H2) H3)).
  - apply andb_prop in H. destruct H as [H H3]. apply andb_prop in H. destruct H as [H1 H2]. apply N.ltb_lt in H3.
    exact (conj (no_label_ok h H1) (conj (numberb_ok packed w id H2) H3)).
  - apply ordinaryb_ok in H. destruct H as (d & Ho & H). destruct d as [| | | | |p| |]; try discriminate. destruct p; try discriminate. exact Ho.
  - apply andb_prop in H. destruct H as [H H3]. apply andb_prop in H. destruct H as [H1 H2]. apply N.ltb_lt in H3.
    apply ordinaryb_ok in H1. destruct H1 as (d & Ho & H1). destruct d as [| |el| | | | |]; try discriminate. exists el.
    exact (conj Ho (conj (PropAccount.plainb_ok types U8 el H1) (conj (bytesb_ok _ H2) H3))).
  - apply andb_prop in H. destruct H as [H H2]. apply ordinaryb_ok in H. destruct H as (d & Ho & H). destruct d as [| | |n el| | | |]; try discriminate.
    apply andb_prop in H. destruct H as [H0 H1]. apply N.eqb_eq in H0. rewrite H0 in Ho. exists el. exact (conj Ho (conj (PropAccount.plainb_ok types U8 el H1) (bytesb_ok _ H2))).
  - apply andb_prop in H. destruct H as [H H2]. apply N.ltb_lt in H2. apply ordinaryb_ok in H. destruct H as (d & Ho & H). destruct d as [|vs| | | | | |]; try discriminate.
    destruct (variantb vs n name) as [ [|]|] eqn:Hv; try discriminate. exists vs. exact (conj Ho (conj (variantb_ok _ _ _ _ Hv) H2)).
  - apply andb_prop in H. destruct H as [H H2]. apply N.ltb_lt in H2. apply ordinaryb_ok in H. destruct H as (d & Ho & H). destruct d as [|vs| | | | | |]; try discriminate.
    destruct (variantb vs n name) as [ [|f [|] ]|] eqn:Hv; try discriminate. apply andb_prop in H. destruct H as [H3 H4]. exists vs, f.
    exact (conj Ho (conj (variantb_ok _ _ _ _ Hv) (conj H2 (conj (noname_ok f H3) (IH _ _ H4))))).
  - apply andb_prop in H. destruct H as [H0 H]. apply ordinaryb_ok in H. destruct H as (d & Ho & H). destruct d as [fs| | | | | | |]; try discriminate.
    apply andb_prop in H. destruct H as [H1 H2]. apply Nat.leb_le in H1. refine (conj (no_label_ok h H0) _). exists fs. exact (conj Ho (conj H1 (all_ok l IH fs H2))).
  - apply ordinaryb_ok in H. destruct H as (d & Ho & H). destruct d as [| |el| | | | |]; try discriminate. apply andb_prop in H. destruct H as [H H3]. apply andb_prop in H. destruct H as [H1 H2].
    apply N.ltb_lt in H2. exists el. refine (conj Ho (conj (elementb_ok el H1) (conj H2 _))). clear H2. induction IH as [|a l Ha _ IHl]; [exact I|].
    apply andb_prop in H3. destruct H3 as [H3 H4]. exact (conj (Ha _ _ H3) (IHl H4)).
  - destruct (lookup types id) as [t|] eqn:E1; [|discriminate]. apply andb_prop in H. destruct H as [H1 H]. apply item_ok in H1.
    destruct (t_def t) as [|pallets| | | | | |] eqn:E2; try discriminate. destruct (by_index pallets i) as [p|] eqn:E3; [|discriminate].
    apply andb_prop in H. destruct H as [H2 H]. apply String.eqb_eq in H2. destruct (v_fields p) as [|f [|g r] ] eqn:E4; try discriminate.
    destruct (lookup types (f_ty f)) as [inner|] eqn:E5; [|discriminate]. apply andb_prop in H. destruct H as [H3 H]. apply item_ok in H3.
    destruct (t_def inner) as [|items| | | | | |] eqn:E6; try discriminate. destruct (by_index items j) as [item|] eqn:E7; [|discriminate].
    apply andb_prop in H. destruct H as [H K2]. apply andb_prop in H. destruct H as [H K1]. apply andb_prop in H. destruct H as [H4 H5]. apply String.eqb_eq in H4. apply N.ltb_lt in K1, K2.
    exists t, pallets, p, f, inner, items, item.
    exact (conj E1 (conj H1 (conj E2 (conj E3 (conj H2 (conj E4 (conj E5 (conj H3 (conj E6 (conj E7 (conj H4 (conj (all_ok l IH _ H5) (conj K1 K2))))))))))))).
  - apply andb_prop in H. destruct H as [H H3]. apply andb_prop in H. destruct H as [H H2]. apply N.ltb_lt in H2.
    apply ordinaryb_ok in H. destruct H as (d & Ho & H). destruct d as [|vs| | | | | |]; try discriminate.
    destruct (variantb vs n name) as [fs|] eqn:Hv; try discriminate. exists vs, fs.
    refine (conj Ho (conj (variantb_ok _ _ _ _ Hv) (conj H2 (conj _ (all_ok l IH fs H))))). destruct l; discriminate.
  - apply ordinaryb_ok in H. destruct H as (d & Ho & H). destruct d as [ [|f [|g fs] ]| | | | | | |]; try discriminate.
    apply andb_prop in H. destruct H as [H1 H2]. exists f. exact (conj Ho (conj (noname_ok f H1) (IH _ _ H2))).
  - apply andb_prop in H. destruct H as [H H3]. apply andb_prop in H. destruct H as [H H2]. apply N.ltb_lt in H2. apply Nat.leb_le in H3.
    apply ordinaryb_ok in H. destruct H as (d & Ho & H). destruct d as [|vs| | | | | |]; try discriminate.
    destruct (variantb vs n name) as [fs|] eqn:Hv; try discriminate. exists vs, fs.
    exact (conj Ho (conj (variantb_ok _ _ _ _ Hv) (conj H2 (conj H3 (unnamed_ok l IH fs H))))).
  - apply andb_prop in H. destruct H as [H H3]. apply andb_prop in H. destruct H as [H0 H]. refine (conj (no_label_ok h H0) _).
    apply ordinaryb_ok in H. destruct H as (d & Ho & H). destruct d as [| | | |ids| | |]; try discriminate. exists ids.
    refine (conj Ho (conj _ (each_ok l IH ids H))). destruct l; discriminate.
  - apply andb_prop in H. destruct H as [H H3]. apply andb_prop in H. destruct H as [H H2]. apply andb_prop in H. destruct H as [H0 H1]. apply Nat.eqb_eq in H3.
    refine (conj (recognisedb_ok types id _ _ (is_raw_ok k) H0) (conj _ (conj (bytesb_ok _ H2) H3))). intros K. rewrite K in H1. discriminate H1.
  - apply andb_prop in H. destruct H as [H H2]. apply N.ltb_lt in H2. refine (conj _ H2). destruct packed; [|exact (recognisedb_ok types id _ _ (is_part_ok k) H)].
    apply ordinaryb_ok in H. destruct H as (d & Ho & H). destruct d as [| | | | | |j|]; try discriminate. exists j. exact (conj Ho (recognisedb_ok types j _ _ (is_part_ok k) H)).
  - apply andb_prop in H. destruct H as [H H2]. apply andb_prop in H. destruct H as [H0 H]. apply N.ltb_lt in H2. refine (conj (no_label_ok h H0) (conj _ H2)).
    apply ordinaryb_ok in H. destruct H as (d & Ho & H). destruct d as [| | | | | |j|]; try discriminate. exists j. refine (conj Ho _).
    apply ordinaryb_ok in H. destruct H as (d & Ho' & H). destruct d as [ [|f [|] ]| | | | | | |]; try discriminate. exists f.
    apply andb_prop in H. destruct H as [H H3]. apply andb_prop in H. destruct H as [H H1]. refine (conj Ho' (conj (noname_ok f H) (conj _ (PropAccount.plainb_ok types w _ H3)))).
    unfold PropAccount.no_labelb in H1. destruct (field_label f); try discriminate H1. reflexivity.
Qed.

(** ** Calls like the given ones *)

Definition all_like : list (string * arg) -> list (string * arg) -> Prop :=
  fix all (l l' : list (string * arg)) {struct l} : Prop :=
    match l, l' with
    | [], [] => True
    | (n, x) :: r, (n', x') :: r' => n' = n /\ like x x' /\ all r r'
    | _, _ => False
    end.

Lemma all_like_ok l : Forall (fun x => forall b h id, allowed types h id (snd x) -> like (snd x) b -> allowed types h id b) l ->
  forall fs l', PropOrder.named types fs l -> all_like l l' -> PropOrder.named types fs l'.
Proof.
  induction 1 as [|[n a] l Ha _ IH]; intros [|f fs] [|[n' a'] l'] H L; try contradiction; [exact I|].
  destruct H as (H1 & H2 & H3). destruct L as (-> & L2 & L3). exact (conj H1 (conj (Ha _ _ _ H2 L2) (IH _ _ H3 L3))).
Qed.

Definition each_like : list arg -> list arg -> Prop :=
  fix each (l l' : list arg) {struct l} : Prop :=
    match l, l' with
    | [], [] => True
    | x :: r, x' :: r' => like x x' /\ each r r'
    | _, _ => False
    end.

Lemma each_like_length l : forall l', each_like l l' -> List.length l' = List.length l.
Proof. induction l as [|a l IH]; intros [|b l'] H; try contradiction H; [reflexivity|]. destruct H as (_ & H). cbn [List.length]. rewrite (IH l' H). reflexivity. Qed.

Lemma unnamed_like_ok l : Forall (fun x => forall b h id, allowed types h id x -> like x b -> allowed types h id b) l ->
  forall fs l', PropOrder.unnamed types fs l -> each_like l l' -> PropOrder.unnamed types fs l'.
Proof.
  induction 1 as [|a l Ha _ IH]; intros [|f fs] [|a' l'] H L; try contradiction; [exact I|].
  destruct H as (H1 & H2 & H3). destruct L as (L2 & L3). exact (conj H1 (conj (Ha _ _ _ H2 L2) (IH _ _ H3 L3))).
Qed.

Lemma each_like_ok l : Forall (fun x => forall b h id, allowed types h id x -> like x b -> allowed types h id b) l ->
  forall ids l', PropOrder.each types ids l -> each_like l l' -> PropOrder.each types ids l'.
Proof.
  induction 1 as [|a l Ha _ IH]; intros [|i ids] [|a' l'] H L; try contradiction; [exact I|].
  destruct H as ((t & H1 & H2) & H3). destruct L as (L2 & L3). split; [exists t; exact (conj H1 (Ha _ _ _ H2 L2))|exact (IH _ _ H3 L3)].
Qed.

Lemma like_allowed a : forall b h id, allowed types h id a -> like a b -> allowed types h id b.
Proof.
  induction a as [who|x|packed n|packed w n|b|l|l|n name|n name a IH|l IH|l IH|i j pallet name l IH|n name l IH|a IH|n name l IH|l IH|k l|packed k n|w n] using arg_induction; intros b' h id H L;
    destruct b' as [who'|x'|packed' n'|packed' w' n'|b'|l'|l'|n' name'|n' name' a'|l'|l'|i' j' pallet' name' l'|n' name' l'|a'|n' name' l'|l'|k' l'|packed' k' n'|w' n']; try contradiction L.
  - destruct H as (H & _). exact (conj H L).
  - destruct H as (H & H1 & _). exact (conj H (conj H1 L)).
  - destruct H as (H & H1 & _). destruct L as (-> & L). exact (conj H (conj H1 L)).
  - destruct H as (H & H1 & _). destruct L as (-> & -> & L). exact (conj H (conj H1 L)).
  - exact H.
  - destruct H as (el & H & H1 & _). exists el. exact (conj H (conj H1 L)).
  - destruct H as (el & H & H1 & _). destruct L as (L1 & L2). exists el. rewrite L2. exact (conj H (conj H1 L1)).
  - destruct L as (-> & ->). exact H.
  - destruct L as (-> & -> & L). destruct H as (vs & f & H1 & H2 & H3 & H4 & H5). exists vs, f. exact (conj H1 (conj H2 (conj H3 (conj H4 (IH _ _ _ H5 L))))).
  - destruct H as (H & fs & H1 & H2 & H3). refine (conj H _). exists fs. exact (conj H1 (conj H2 (all_like_ok l IH fs l' H3 L))).
  - destruct H as (el & H1 & H2 & _ & H3). destruct L as (L1 & L2). exists el. refine (conj H1 (conj H2 (conj L1 _))).
    clear L1. induction L2 as [|y l' Hy _ IHl']; [exact I|]. refine (conj _ IHl'). clear IHl'.
    induction IH as [|x l Hx _ IHl]; [contradiction Hy|]. destruct H3 as (H3 & H4). destruct Hy as [Hy|Hy]; [exact (Hx _ _ _ H3 Hy)|exact (IHl H4 Hy)].
  - destruct L as (-> & -> & -> & -> & L).
    destruct H as (t & pallets & p & f & inner & items & item & E1 & H1 & E2 & E3 & H2 & E4 & E5 & H3 & E6 & E7 & H4 & A & K).
    exists t, pallets, p, f, inner, items, item.
    exact (conj E1 (conj H1 (conj E2 (conj E3 (conj H2 (conj E4 (conj E5 (conj H3 (conj E6 (conj E7 (conj H4 (conj (all_like_ok l IH _ l' A L) K)))))))))))).
  - destruct L as (-> & -> & L). destruct H as (vs & fs & H1 & H2 & H3 & H4 & H5). exists vs, fs.
    refine (conj H1 (conj H2 (conj H3 (conj _ (all_like_ok l IH fs l' H5 L))))). destruct l as [|[? ?] ?]; [contradiction|]. destruct l' as [|[? ?] ?]; [contradiction L|discriminate].
  - destruct H as (f & H1 & H2 & H3). exists f. exact (conj H1 (conj H2 (IH _ _ _ H3 L))).
  - destruct L as (-> & -> & L). destruct H as (vs & fs & H1 & H2 & H3 & H4 & H5). exists vs, fs.
    rewrite <- (each_like_length l l' L) in H4. exact (conj H1 (conj H2 (conj H3 (conj H4 (unnamed_like_ok l IH fs l' H5 L))))).
  - destruct H as (H0 & ids & H1 & H2 & H3). refine (conj H0 _). exists ids. refine (conj H1 (conj _ (each_like_ok l IH ids l' H3 L))).
    destruct l as [|x l]; [contradiction H2; reflexivity|]. destruct l' as [|x' l']; [contradiction L|discriminate].
  - destruct L as (-> & L1 & L2). destruct H as (H1 & H2 & _ & H3). refine (conj H1 (conj H2 (conj L1 _))). congruence.
  - destruct L as (-> & -> & L). destruct H as (H & _). exact (conj H L).
  - destruct L as (-> & L). destruct H as (H1 & H2 & _). exact (conj H1 (conj H2 L)).
Qed.
End Check.

(** What may be called is known from one example. *)
Theorem c83_like : forall types label id a b, allowed types label id a -> like a b -> allowed types label id b.
Proof. intros types label id a b. apply like_allowed. Qed.
Print Assumptions c83_like.

Section Real.
Context {ME : Type}.
Variable md : metadata unit ME.
Variable types : list ty.
Variables (call_ty version : N) (asset hashed : bool).

Definition is_order (a : arg) : Prop := exists i j pallet name l, a = Order i j pallet name l.

(** Whoever signs a call sees it. *)
Definition orders_seen : Prop := forall s g a,
  sg_version s = version -> proper s -> g = None \/ g = Some (sg_genesis s) ->
  is_order a -> allowed types HNone call_ty a -> (N.of_nat (List.length (arg_bytes a)) < 2 ^ 32)%N ->
  exists call xs,
    parsed md g (payload (arg_bytes a) (signed_bytes asset hashed s)) = Ok (TransactionParsed (inl call) xs) /\
    parsed_unmarked md g (arg_bytes a ++ signed_bytes asset hashed s) = Ok (call, xs) /\
    forall b58 icon specs chain_name bits,
      map (show bits) (card_call b58 icon specs chain_name call 0) = arg_lines b58 specs true a /\
      map (show bits) (card_extensions b58 icon specs chain_name xs) = signed_lines asset hashed specs chain_name s.

(** Whoever sees a call signs it. *)
Definition orders_signed : Prop := forall s g a,
  sg_version s = version -> proper s -> g = None \/ g = Some (sg_genesis s) ->
  is_order a -> allowed types HNone call_ty a -> (N.of_nat (List.length (arg_bytes a)) < 2 ^ 32)%N ->
  forall b58 icon specs chain_name bits data call xs,
  base58_faithful b58 -> bits_faithful bits -> (decimals specs < 256)%N -> is_bytes data ->
  parsed md g data = Ok (TransactionParsed (inl call) xs) ->
  map (show bits) (card_call b58 icon specs chain_name call 0) = arg_lines b58 specs true a ->
  map (show bits) (card_extensions b58 icon specs chain_name xs) = signed_lines asset hashed specs chain_name s ->
  data = payload (arg_bytes a) (signed_bytes asset hashed s).

(** The lines of two calls differ. *)
Definition orders_told : Prop := forall b58 specs a b, base58_faithful b58 -> (decimals specs < 256)%N ->
  allowed types HNone call_ty a -> allowed types HNone call_ty b -> arg_lines b58 specs true a = arg_lines b58 specs true b -> a = b.

Variable exts : list ext_meta.
Hypothesis md_types : m_types md = portable types.
Hypothesis usables : forall id, (id < N.of_nat (List.length types))%N -> usable types id.
Hypothesis is_call : m_call_ty md = inl call_ty.
Hypothesis is_exts : m_signed_extensions md = inl exts.
Hypothesis usual : extensionsb types exts = true.
Hypothesis takers : takes exts = order asset hashed.
Variable nv : spec_name_version.
Hypothesis is_spec : m_spec_name_version md = inl nv.
Hypothesis is_version : printed_spec_version nv = dec_string version.
Hypothesis apart : told_apart types.

Lemma orders_real : orders_seen /\ orders_signed /\ orders_told.
Proof.
  pose proof (usable_acyclic types usables) as Ha. pose proof (the_chain_ok md types md_types) as Hch. split; [|split].
  - intros s g a Hv Hp Hg Hi Hl Hlen.
    destruct (c83_order ME (the_chain md types) call_ty exts nv s g a Ha is_call is_exts (extensionsb_ok _ _ usual) is_spec) as (call & xs & T1 & T2 & L); auto.
    { rewrite Hv. exact is_version. }
    exists call, xs. unfold transaction, transaction_unmarked in T1, T2. rewrite Hch in T1, T2.
    pose proof (fun specs cn => usual_takes asset hashed s specs cn exts takers) as U.
    rewrite (proj1 (U (ShortSpecs 0 0 "") "")) in T1, T2.
    split; [exact T1|]. split; [exact T2|]. intros b58 icon specs cn bits. destruct (L b58 icon specs cn bits) as (L1 & L2).
    split; [exact L1|]. rewrite L2. apply U.
  - intros s g a Hv Hp Hg Hi Hl Hlen b58 icon specs cn bits data call xs F1 F2 Hd Hdata T L1 L2.
    destruct (usual_takes asset hashed s specs cn exts takers) as (U1 & U2). rewrite <- U1. rewrite <- U2 in L2. unfold parsed in T. rewrite <- Hch in T.
    refine (c83_only_order ME (the_chain md types) call_ty exts nv s g a Ha apart is_call is_exts (extensionsb_ok _ _ usual) is_spec _ Hp Hg Hi Hl Hlen
      b58 icon specs cn bits data call xs F1 F2 Hd Hdata T L1 L2).
    rewrite Hv. exact is_version.
  - intros b58 specs a b F Hd H1 H2 E. exact (c83_lines_tell types call_ty b58 specs true a b Ha apart F Hd H1 H2 E).
Qed.
End Real.

(** ** Samples *)

Definition sample_account : bytes := repeat 7%N 32.

Definition sampleb (types : list ty) (call_ty : N) (a : arg) : bool := match a with Order _ _ _ _ _ => allowedb types HNone call_ty a | _ => false end.

Lemma samples_ok types call_ty l : forallb (sampleb types call_ty) l = true -> Forall (fun a => is_order a /\ allowed types HNone call_ty a) l.
Proof.
  rewrite forallb_forall, Forall_forall. intros H a Ha. specialize (H a Ha). unfold sampleb in H.
  destruct a as [| | | | | | | | | | |i j pallet name args| | | | | | |]; try discriminate H. split; [exists i, j, pallet, name, args; reflexivity|]. apply allowedb_ok, H.
Qed.

(** Assets sent to another chain: to the account on the parachain 1000 given, as versioned locations and versioned lists of assets. *)
Definition place (interior : arg) : arg := Struct [("parents", Number false U8 0); ("interior", interior)].
Definition sent_abroad (version : N) (version_name : string) (network : arg) (pallet : N) (name : string) (index : N) (call : string) (more : list (string * arg)) : arg :=
  Order pallet index name call
    (("dest", Given version version_name (place (Given 1 "X1" (Given 0 "Parachain" (Number true U32 1000))))) ::
     ("beneficiary", Given version version_name (place (Given 1 "X1" (Made 1 "AccountId32" [("network", network); ("id", Fixed sample_account)])))) ::
     ("assets", Given version version_name (Inside (Several [Struct [("id", Given 0 "Concrete" (place (Choice 0 "Here"))); ("fun", Given 0 "Fungible" (Number true U128 1))]]))) ::
     ("fee_asset_item", Number false U32 0) :: more).
Definition teleports (pallet : N) (name : string) : list arg :=
  [sent_abroad 3 "V3" none pallet name 1 "teleport_assets" [];
   sent_abroad 3 "V3" none pallet name 2 "reserve_transfer_assets" [];
   sent_abroad 3 "V3" none pallet name 8 "limited_reserve_transfer_assets" [("weight_limit", Choice 0 "Unlimited")];
   sent_abroad 3 "V3" none pallet name 9 "limited_teleport_assets" [("weight_limit", Choice 0 "Unlimited")]].

(** The same with an asset known by two junctions, which have no names. *)
Definition sent_token (key : bytes) (pallet : N) (name : string) : arg :=
  Order pallet 8 name "limited_reserve_transfer_assets"
    [("dest", Given 3 "V3" (place (Given 1 "X1" (Given 0 "Parachain" (Number true U32 1000)))));
     ("beneficiary", Given 3 "V3" (place (Given 1 "X1" (Made 3 "AccountKey20" [("network", none); ("key", Fixed key)]))));
     ("assets", Given 3 "V3" (Inside (Several [Struct
       [("id", Given 0 "Concrete" (place (Numbered 2 "X2" [Given 4 "PalletInstance" (Number false U8 50); Given 5 "GeneralIndex" (Number true U128 1984)])));
        ("fun", Given 0 "Fungible" (Number true U128 1))]])));
     ("fee_asset_item", Number false U32 0); ("weight_limit", Choice 0 "Unlimited")].

(** Storage written by hand: pairs of keys and values; and a call at a later time, repeatedly: a period and a number. *)
Definition stored (pallet index : N) : arg := Order pallet index "System" "set_storage" [("items", Several [Tuple [Bytes []; Bytes []]])].
Definition scheduled (pallet : N) (periodic call : arg) : arg :=
  Order pallet 0 "Scheduler" "schedule" [("when", Number false U32 1); ("maybe_periodic", periodic); ("priority", Number false U8 0); ("call", call)].
Definition period : arg := some (Tuple [Number false U32 1; Number false U32 1]).

(** ** Chains *)

(** TestWestend, spec version 9111. *)
Definition westend_transfer : arg := Order 4 3 "Balances" "transfer_keep_alive" [("dest", address sample_account); ("value", Money true 1)].
Definition westend_samples : list arg :=
  [westend_transfer;
   Order 0 1 "System" "remark" [("remark", Bytes [])];
   Order 22 0 "Proxy" "proxy" [("real", Account sample_account); ("force_proxy_type", none); ("call", westend_transfer)];
   Order 16 2 "Utility" "batch_all" [("calls", Several [westend_transfer])];
   Order 23 0 "Multisig" "as_multi_threshold_1" [("other_signatories", Several [Account sample_account]); ("call", westend_transfer)];
   Order 23 1 "Multisig" "as_multi" [("threshold", Number false U16 2); ("other_signatories", Several [Account sample_account]); ("maybe_timepoint", none); ("call", Bytes []); ("store_call", Truth true); ("max_weight", Number false U64 1)];
   Order 23 2 "Multisig" "approve_as_multi" [("threshold", Number false U16 2); ("other_signatories", Several [Account sample_account]); ("maybe_timepoint", none); ("call_hash", Fixed sample_account); ("max_weight", Number false U64 1)];
   Order 23 1 "Multisig" "as_multi" [("threshold", Number false U16 2); ("other_signatories", Several [Account sample_account]); ("maybe_timepoint", some (Struct [("height", Number false U32 1); ("index", Number false U32 1)])); ("call", Bytes []); ("store_call", Truth true); ("max_weight", Number false U64 1)];
   Order 23 2 "Multisig" "approve_as_multi" [("threshold", Number false U16 2); ("other_signatories", Several [Account sample_account]); ("maybe_timepoint", some (Struct [("height", Number false U32 1); ("index", Number false U32 1)])); ("call_hash", Fixed sample_account); ("max_weight", Number false U64 1)];
   Order 6 0 "Staking" "bond" [("controller", address sample_account); ("value", Money true 1); ("payee", Choice 0 "Staked")];
   Order 6 1 "Staking" "bond_extra" [("max_additional", Money true 1)];
   Order 6 5 "Staking" "nominate" [("targets", Several [address sample_account])]] ++ [sent_abroad 1 "V1" (Choice 0 "Any") 99 "XcmPallet" 1 "teleport_assets" []; sent_abroad 1 "V1" (Choice 0 "Any") 99 "XcmPallet" 2 "reserve_transfer_assets" []] ++ [stored 0 6; scheduled 20 none westend_transfer; scheduled 20 period westend_transfer].
Theorem c83_westend : orders_seen TestWestend.md TestWestend.md_types 267 9111 false false /\ orders_signed TestWestend.md TestWestend.md_types 267 9111 false false /\ orders_told TestWestend.md_types 267.
Proof. exact (orders_real _ _ _ _ _ _ _ westend_md PropWhole.westend_usable westend_call westend_is_exts westend_usual westend_takes _ westend_is_spec westend_version PropSee.westend_told_apart). Qed.
Print Assumptions c83_westend.
Lemma westend_samples_ok : Forall (fun a => is_order a /\ allowed TestWestend.md_types HNone 267 a) westend_samples.
Proof. apply samples_ok. vm_compute. reflexivity. Qed.

(** TestPolkadot9430, spec version 9430. *)
Definition polkadot9430_transfer : arg := Order 5 3 "Balances" "transfer_keep_alive" [("dest", address sample_account); ("value", Money true 1)].
Definition polkadot9430_samples : list arg :=
  [polkadot9430_transfer;
   Order 0 0 "System" "remark" [("remark", Bytes [])];
   Order 29 0 "Proxy" "proxy" [("real", address sample_account); ("force_proxy_type", none); ("call", polkadot9430_transfer)];
   Order 26 2 "Utility" "batch_all" [("calls", Several [polkadot9430_transfer])];
   Order 30 0 "Multisig" "as_multi_threshold_1" [("other_signatories", Several [Account sample_account]); ("call", polkadot9430_transfer)];
   Order 30 1 "Multisig" "as_multi" [("threshold", Number false U16 2); ("other_signatories", Several [Account sample_account]); ("maybe_timepoint", none); ("call", polkadot9430_transfer); ("max_weight", Struct [("ref_time", Number true U64 1); ("proof_size", Number true U64 1)])];
   Order 30 2 "Multisig" "approve_as_multi" [("threshold", Number false U16 2); ("other_signatories", Several [Account sample_account]); ("maybe_timepoint", none); ("call_hash", Fixed sample_account); ("max_weight", Struct [("ref_time", Number true U64 1); ("proof_size", Number true U64 1)])];
   Order 30 1 "Multisig" "as_multi" [("threshold", Number false U16 2); ("other_signatories", Several [Account sample_account]); ("maybe_timepoint", some (Struct [("height", Number false U32 1); ("index", Number false U32 1)])); ("call", polkadot9430_transfer); ("max_weight", Struct [("ref_time", Number true U64 1); ("proof_size", Number true U64 1)])];
   Order 30 2 "Multisig" "approve_as_multi" [("threshold", Number false U16 2); ("other_signatories", Several [Account sample_account]); ("maybe_timepoint", some (Struct [("height", Number false U32 1); ("index", Number false U32 1)])); ("call_hash", Fixed sample_account); ("max_weight", Struct [("ref_time", Number true U64 1); ("proof_size", Number true U64 1)])];
   Order 7 0 "Staking" "bond" [("value", Money true 1); ("payee", Choice 0 "Staked")];
   Order 7 1 "Staking" "bond_extra" [("max_additional", Money true 1)];
   Order 7 5 "Staking" "nominate" [("targets", Several [address sample_account])]] ++ teleports 99 "XcmPallet" ++ [sent_token (repeat 7%N 20) 99 "XcmPallet"; stored 0 4; scheduled 1 none polkadot9430_transfer; scheduled 1 period polkadot9430_transfer].
Theorem c83_polkadot9430 : orders_seen TestPolkadot9430.md TestPolkadot9430.md_types 79 9430 false false /\ orders_signed TestPolkadot9430.md TestPolkadot9430.md_types 79 9430 false false /\ orders_told TestPolkadot9430.md_types 79.
Proof. exact (orders_real _ _ _ _ _ _ _ polkadot9430_md PropReal.polkadot9430_usable polkadot9430_call polkadot9430_is_exts polkadot9430_usual polkadot9430_takes _ polkadot9430_is_spec polkadot9430_version polkadot9430_apart). Qed.
Print Assumptions c83_polkadot9430.
Lemma polkadot9430_samples_ok : Forall (fun a => is_order a /\ allowed TestPolkadot9430.md_types HNone 79 a) polkadot9430_samples.
Proof. apply samples_ok. vm_compute. reflexivity. Qed.

(** TestPolkadot15, spec version 1000001. *)
Definition polkadot15_transfer : arg := Order 5 3 "Balances" "transfer_keep_alive" [("dest", address sample_account); ("value", Money true 1)].
Definition polkadot15_samples : list arg :=
  [polkadot15_transfer;
   Order 0 0 "System" "remark" [("remark", Bytes [])];
   Order 29 0 "Proxy" "proxy" [("real", address sample_account); ("force_proxy_type", none); ("call", polkadot15_transfer)];
   Order 26 2 "Utility" "batch_all" [("calls", Several [polkadot15_transfer])];
   Order 30 0 "Multisig" "as_multi_threshold_1" [("other_signatories", Several [Account sample_account]); ("call", polkadot15_transfer)];
   Order 30 1 "Multisig" "as_multi" [("threshold", Number false U16 2); ("other_signatories", Several [Account sample_account]); ("maybe_timepoint", none); ("call", polkadot15_transfer); ("max_weight", Struct [("ref_time", Number true U64 1); ("proof_size", Number true U64 1)])];
   Order 30 2 "Multisig" "approve_as_multi" [("threshold", Number false U16 2); ("other_signatories", Several [Account sample_account]); ("maybe_timepoint", none); ("call_hash", Fixed sample_account); ("max_weight", Struct [("ref_time", Number true U64 1); ("proof_size", Number true U64 1)])];
   Order 30 1 "Multisig" "as_multi" [("threshold", Number false U16 2); ("other_signatories", Several [Account sample_account]); ("maybe_timepoint", some (Struct [("height", Number false U32 1); ("index", Number false U32 1)])); ("call", polkadot15_transfer); ("max_weight", Struct [("ref_time", Number true U64 1); ("proof_size", Number true U64 1)])];
   Order 30 2 "Multisig" "approve_as_multi" [("threshold", Number false U16 2); ("other_signatories", Several [Account sample_account]); ("maybe_timepoint", some (Struct [("height", Number false U32 1); ("index", Number false U32 1)])); ("call_hash", Fixed sample_account); ("max_weight", Struct [("ref_time", Number true U64 1); ("proof_size", Number true U64 1)])];
   Order 7 0 "Staking" "bond" [("value", Money true 1); ("payee", Choice 0 "Staked")];
   Order 7 1 "Staking" "bond_extra" [("max_additional", Money true 1)];
   Order 7 5 "Staking" "nominate" [("targets", Several [address sample_account])]] ++ teleports 99 "XcmPallet" ++ [sent_token (repeat 7%N 20) 99 "XcmPallet"; stored 0 4; scheduled 1 none polkadot15_transfer; scheduled 1 period polkadot15_transfer].
Theorem c83_polkadot15 : orders_seen TestPolkadot15.md TestPolkadot15.md_types 68 1000001 false false /\ orders_signed TestPolkadot15.md TestPolkadot15.md_types 68 1000001 false false /\ orders_told TestPolkadot15.md_types 68.
Proof. exact (orders_real _ _ _ _ _ _ _ polkadot15_md PropReal.polkadot15_usable polkadot15_call polkadot15_is_exts polkadot15_usual polkadot15_takes _ polkadot15_is_spec polkadot15_version polkadot15_apart). Qed.
Print Assumptions c83_polkadot15.
Lemma polkadot15_samples_ok : Forall (fun a => is_order a /\ allowed TestPolkadot15.md_types HNone 68 a) polkadot15_samples.
Proof. apply samples_ok. vm_compute. reflexivity. Qed.

(** TestUnchecked15, spec version 1003003. *)
Definition polkadot1003003_transfer : arg := Order 5 3 "Balances" "transfer_keep_alive" [("dest", address sample_account); ("value", Money true 1)].
Definition polkadot1003003_samples : list arg :=
  [polkadot1003003_transfer;
   Order 0 0 "System" "remark" [("remark", Bytes [])];
   Order 29 0 "Proxy" "proxy" [("real", address sample_account); ("force_proxy_type", none); ("call", polkadot1003003_transfer)];
   Order 26 2 "Utility" "batch_all" [("calls", Several [polkadot1003003_transfer])];
   Order 30 0 "Multisig" "as_multi_threshold_1" [("other_signatories", Several [Account sample_account]); ("call", polkadot1003003_transfer)];
   Order 30 1 "Multisig" "as_multi" [("threshold", Number false U16 2); ("other_signatories", Several [Account sample_account]); ("maybe_timepoint", none); ("call", polkadot1003003_transfer); ("max_weight", Struct [("ref_time", Number true U64 1); ("proof_size", Number true U64 1)])];
   Order 30 2 "Multisig" "approve_as_multi" [("threshold", Number false U16 2); ("other_signatories", Several [Account sample_account]); ("maybe_timepoint", none); ("call_hash", Fixed sample_account); ("max_weight", Struct [("ref_time", Number true U64 1); ("proof_size", Number true U64 1)])];
   Order 30 1 "Multisig" "as_multi" [("threshold", Number false U16 2); ("other_signatories", Several [Account sample_account]); ("maybe_timepoint", some (Struct [("height", Number false U32 1); ("index", Number false U32 1)])); ("call", polkadot1003003_transfer); ("max_weight", Struct [("ref_time", Number true U64 1); ("proof_size", Number true U64 1)])];
   Order 30 2 "Multisig" "approve_as_multi" [("threshold", Number false U16 2); ("other_signatories", Several [Account sample_account]); ("maybe_timepoint", some (Struct [("height", Number false U32 1); ("index", Number false U32 1)])); ("call_hash", Fixed sample_account); ("max_weight", Struct [("ref_time", Number true U64 1); ("proof_size", Number true U64 1)])];
   Order 7 0 "Staking" "bond" [("value", Money true 1); ("payee", Choice 0 "Staked")];
   Order 7 1 "Staking" "bond_extra" [("max_additional", Money true 1)];
   Order 7 5 "Staking" "nominate" [("targets", Several [address sample_account])]] ++ teleports 99 "XcmPallet" ++ [sent_token (repeat 7%N 20) 99 "XcmPallet"; stored 0 4; scheduled 1 none polkadot1003003_transfer; scheduled 1 period polkadot1003003_transfer].
Theorem c83_polkadot1003003 : orders_seen TestUnchecked15.md TestUnchecked15.md_types 93 1003003 false true /\ orders_signed TestUnchecked15.md TestUnchecked15.md_types 93 1003003 false true /\ orders_told TestUnchecked15.md_types 93.
Proof. exact (orders_real _ _ _ _ _ _ _ polkadot1003003_md PropReal.unchecked15_usable polkadot1003003_call polkadot1003003_is_exts polkadot1003003_usual polkadot1003003_takes _ polkadot1003003_is_spec polkadot1003003_version polkadot1003003_apart). Qed.
Print Assumptions c83_polkadot1003003.
Lemma polkadot1003003_samples_ok : Forall (fun a => is_order a /\ allowed TestUnchecked15.md_types HNone 93 a) polkadot1003003_samples.
Proof. apply samples_ok. vm_compute. reflexivity. Qed.

(** TestAstar, spec version 66. *)
Definition astar_transfer : arg := Order 31 3 "Balances" "transfer_keep_alive" [("dest", address sample_account); ("value", Money true 1)].
Definition astar_samples : list arg :=
  [astar_transfer;
   Order 10 0 "System" "remark" [("remark", Bytes [])];
   Order 15 0 "Proxy" "proxy" [("real", address sample_account); ("force_proxy_type", none); ("call", astar_transfer)];
   Order 11 2 "Utility" "batch_all" [("calls", Several [astar_transfer])];
   Order 14 0 "Multisig" "as_multi_threshold_1" [("other_signatories", Several [Account sample_account]); ("call", astar_transfer)];
   Order 14 1 "Multisig" "as_multi" [("threshold", Number false U16 2); ("other_signatories", Several [Account sample_account]); ("maybe_timepoint", none); ("call", astar_transfer); ("max_weight", Struct [("ref_time", Number true U64 1); ("proof_size", Number true U64 1)])];
   Order 14 2 "Multisig" "approve_as_multi" [("threshold", Number false U16 2); ("other_signatories", Several [Account sample_account]); ("maybe_timepoint", none); ("call_hash", Fixed sample_account); ("max_weight", Struct [("ref_time", Number true U64 1); ("proof_size", Number true U64 1)])];
   Order 14 1 "Multisig" "as_multi" [("threshold", Number false U16 2); ("other_signatories", Several [Account sample_account]); ("maybe_timepoint", some (Struct [("height", Number false U32 1); ("index", Number false U32 1)])); ("call", astar_transfer); ("max_weight", Struct [("ref_time", Number true U64 1); ("proof_size", Number true U64 1)])];
   Order 14 2 "Multisig" "approve_as_multi" [("threshold", Number false U16 2); ("other_signatories", Several [Account sample_account]); ("maybe_timepoint", some (Struct [("height", Number false U32 1); ("index", Number false U32 1)])); ("call_hash", Fixed sample_account); ("max_weight", Struct [("ref_time", Number true U64 1); ("proof_size", Number true U64 1)])]] ++ teleports 51 "PolkadotXcm" ++ [sent_token (repeat 7%N 20) 51 "PolkadotXcm"; stored 10 4].
Theorem c83_astar : orders_seen TestAstar.md TestAstar.md_types 164 66 false false /\ orders_signed TestAstar.md TestAstar.md_types 164 66 false false /\ orders_told TestAstar.md_types 164.
Proof. exact (orders_real _ _ _ _ _ _ _ astar_md PropReal.astar_usable astar_call astar_is_exts astar_usual astar_takes _ astar_is_spec astar_version astar_apart). Qed.
Print Assumptions c83_astar.
Lemma astar_samples_ok : Forall (fun a => is_order a /\ allowed TestAstar.md_types HNone 164 a) astar_samples.
Proof. apply samples_ok. vm_compute. reflexivity. Qed.

(** TestBifrost, spec version 982. *)
Definition bifrost_transfer : arg := Order 10 3 "Balances" "transfer_keep_alive" [("dest", address sample_account); ("value", Money true 1)].
Definition bifrost_samples : list arg :=
  [bifrost_transfer;
   Order 0 0 "System" "remark" [("remark", Bytes [])];
   Order 52 0 "Proxy" "proxy" [("real", address sample_account); ("force_proxy_type", none); ("call", bifrost_transfer)];
   Order 50 2 "Utility" "batch_all" [("calls", Several [bifrost_transfer])];
   Order 53 0 "Multisig" "as_multi_threshold_1" [("other_signatories", Several [Account sample_account]); ("call", bifrost_transfer)];
   Order 53 1 "Multisig" "as_multi" [("threshold", Number false U16 2); ("other_signatories", Several [Account sample_account]); ("maybe_timepoint", none); ("call", bifrost_transfer); ("max_weight", Struct [("ref_time", Number true U64 1); ("proof_size", Number true U64 1)])];
   Order 53 2 "Multisig" "approve_as_multi" [("threshold", Number false U16 2); ("other_signatories", Several [Account sample_account]); ("maybe_timepoint", none); ("call_hash", Fixed sample_account); ("max_weight", Struct [("ref_time", Number true U64 1); ("proof_size", Number true U64 1)])];
   Order 53 1 "Multisig" "as_multi" [("threshold", Number false U16 2); ("other_signatories", Several [Account sample_account]); ("maybe_timepoint", some (Struct [("height", Number false U32 1); ("index", Number false U32 1)])); ("call", bifrost_transfer); ("max_weight", Struct [("ref_time", Number true U64 1); ("proof_size", Number true U64 1)])];
   Order 53 2 "Multisig" "approve_as_multi" [("threshold", Number false U16 2); ("other_signatories", Several [Account sample_account]); ("maybe_timepoint", some (Struct [("height", Number false U32 1); ("index", Number false U32 1)])); ("call_hash", Fixed sample_account); ("max_weight", Struct [("ref_time", Number true U64 1); ("proof_size", Number true U64 1)])]] ++ teleports 41 "PolkadotXcm" ++ [sent_token (repeat 7%N 20) 41 "PolkadotXcm"; stored 0 4; scheduled 51 none bifrost_transfer; scheduled 51 period bifrost_transfer].
Theorem c83_bifrost : orders_seen TestBifrost.md TestBifrost.md_types 58 982 false false /\ orders_signed TestBifrost.md TestBifrost.md_types 58 982 false false /\ orders_told TestBifrost.md_types 58.
Proof. exact (orders_real _ _ _ _ _ _ _ bifrost_md PropReal.bifrost_usable bifrost_call bifrost_is_exts bifrost_usual bifrost_takes _ bifrost_is_spec bifrost_version bifrost_apart). Qed.
Print Assumptions c83_bifrost.
Lemma bifrost_samples_ok : Forall (fun a => is_order a /\ allowed TestBifrost.md_types HNone 58 a) bifrost_samples.
Proof. apply samples_ok. vm_compute. reflexivity. Qed.

(** TestStatemint, spec version 1002000. *)
Definition statemint_transfer : arg := Order 10 3 "Balances" "transfer_keep_alive" [("dest", address sample_account); ("value", Money true 1)].
Definition statemint_samples : list arg :=
  [statemint_transfer;
   Order 0 0 "System" "remark" [("remark", Bytes [])];
   Order 42 0 "Proxy" "proxy" [("real", address sample_account); ("force_proxy_type", none); ("call", statemint_transfer)];
   Order 40 2 "Utility" "batch_all" [("calls", Several [statemint_transfer])];
   Order 41 0 "Multisig" "as_multi_threshold_1" [("other_signatories", Several [Account sample_account]); ("call", statemint_transfer)];
   Order 41 1 "Multisig" "as_multi" [("threshold", Number false U16 2); ("other_signatories", Several [Account sample_account]); ("maybe_timepoint", none); ("call", statemint_transfer); ("max_weight", Struct [("ref_time", Number true U64 1); ("proof_size", Number true U64 1)])];
   Order 41 2 "Multisig" "approve_as_multi" [("threshold", Number false U16 2); ("other_signatories", Several [Account sample_account]); ("maybe_timepoint", none); ("call_hash", Fixed sample_account); ("max_weight", Struct [("ref_time", Number true U64 1); ("proof_size", Number true U64 1)])];
   Order 41 1 "Multisig" "as_multi" [("threshold", Number false U16 2); ("other_signatories", Several [Account sample_account]); ("maybe_timepoint", some (Struct [("height", Number false U32 1); ("index", Number false U32 1)])); ("call", statemint_transfer); ("max_weight", Struct [("ref_time", Number true U64 1); ("proof_size", Number true U64 1)])];
   Order 41 2 "Multisig" "approve_as_multi" [("threshold", Number false U16 2); ("other_signatories", Several [Account sample_account]); ("maybe_timepoint", some (Struct [("height", Number false U32 1); ("index", Number false U32 1)])); ("call_hash", Fixed sample_account); ("max_weight", Struct [("ref_time", Number true U64 1); ("proof_size", Number true U64 1)])]] ++ teleports 31 "PolkadotXcm" ++ [sent_token (repeat 7%N 20) 31 "PolkadotXcm"; stored 0 4].
Theorem c83_statemint : orders_seen TestStatemint.md TestStatemint.md_types 343 1002000 true false /\ orders_signed TestStatemint.md TestStatemint.md_types 343 1002000 true false /\ orders_told TestStatemint.md_types 343.
Proof. exact (orders_real _ _ _ _ _ _ _ statemint_md PropWhole.statemint_usable statemint_call statemint_is_exts statemint_usual statemint_takes _ statemint_is_spec statemint_version statemint_apart). Qed.
Print Assumptions c83_statemint.
Lemma statemint_samples_ok : Forall (fun a => is_order a /\ allowed TestStatemint.md_types HNone 343 a) statemint_samples.
Proof. apply samples_ok. vm_compute. reflexivity. Qed.

(** Every call like one of the samples is among the calls above. *)
Theorem c83_samples : forall types call_ty samples a b, Forall (fun a => is_order a /\ allowed types HNone call_ty a) samples ->
  In a samples -> like a b -> is_order b /\ allowed types HNone call_ty b.
Proof.
  intros types call_ty samples a b H Hin L. rewrite Forall_forall in H. destruct (H a Hin) as (_ & Hal). split; [|exact (c83_like types HNone call_ty a b Hal L)].
  destruct (H a Hin) as ((i & j & pallet & name & l & ->) & _). destruct b as [| | | | | | | | | | |i' j' pallet' name' l'| | | | | | |]; try contradiction L. exists i', j', pallet', name', l'. reflexivity.
Qed.
Print Assumptions c83_samples.

(** For someone else: a batch of a transfer and a bond, together with a remark. *)
Definition example_order : arg :=
  Order 22 0 "Proxy" "proxy"
    [("real", Account bob); ("force_proxy_type", some (Choice 0 "Any"));
     ("call", Order 23 0 "Multisig" "as_multi_threshold_1"
        [("other_signatories", Several [Account (repeat 7%N 32)]);
         ("call", Order 16 2 "Utility" "batch_all"
            [("calls", Several [Order 4 3 "Balances" "transfer_keep_alive" [("dest", address bob); ("value", Money true 100000000)];
                                Order 6 1 "Staking" "bond_extra" [("max_additional", Money true 1)];
                                Order 0 1 "System" "remark" [("remark", Bytes [104; 105]%N)]])])])].

Example c83_example : is_order example_order /\ allowed TestWestend.md_types HNone 267 example_order /\
  (N.of_nat (List.length (arg_bytes example_order)) < 2 ^ 32)%N /\
  hex_encode (arg_bytes example_order) =
    "16008eaf04151687736326c9fea17e25fc5287613693c912909cb226aa4794f26a480100170004070707070707070707070707070707070707070707070707070707070707070710020c0403008eaf04151687736326c9fea17e25fc5287613693c912909cb226aa4794f26a480284d7170601040001086869" /\
  arg_lines Address.address (ShortSpecs 42 12 "WND") true example_order =
  ["Pallet: Proxy";
   "  Call: proxy";
   "    Field Name: real";
   "      Id: 5FHneW46xGXgs5mUiveU4sbTyGBzmstUspZC92UhjJM694ty";
   "    Field Name: force_proxy_type";
   "      Enum";
   "        Enum Variant Name: Some";
   "          Enum";
   "            Enum Variant Name: Any";
   "    Field Name: call";
   "      Pallet: Multisig";
   "        Call: as_multi_threshold_1";
   "          Field Name: other_signatories";
   "            Sequence: 1 element(s)";
   "              Id: 5CDvHBym6RLoxTdX9MS1acpaDbNxaFagqM5LpBiFGjWT6o1n";
   "          Field Name: call";
   "            Pallet: Utility";
   "              Call: batch_all";
   "                Field Name: calls";
   "                  Sequence: 3 element(s)";
   "                    Pallet: Balances";
   "                      Call: transfer_keep_alive";
   "                        Field Name: dest";
   "                          Enum";
   "                            Enum Variant Name: Id";
   "                              Id: 5FHneW46xGXgs5mUiveU4sbTyGBzmstUspZC92UhjJM694ty";
   "                        Field Name: value";
   "                          Balance: 100.000000 uWND";
   "                    Pallet: Staking";
   "                      Call: bond_extra";
   "                        Field Name: max_additional";
   "                          Balance: 1 pWND";
   "                    Pallet: System";
   "                      Call: remark";
   "                        Field Name: remark";
   "                          Text: hi"].
Proof.
  split; [repeat eexists|]. split; [apply allowedb_ok; vm_compute; reflexivity|]. split; [reflexivity|split; vm_compute; reflexivity].
Qed.

(** An account of twenty bytes is sent a token that is known by two junctions; and storage is to be written by hand later, twice. *)
Example c83_token : allowed TestStatemint.md_types HNone 343 (sent_token (repeat 254%N 20) 31 "PolkadotXcm") /\
  hex_encode (arg_bytes (sent_token (repeat 254%N 20) 31 "PolkadotXcm")) =
    "1f0803000100a10f0300010300fefefefefefefefefefefefefefefefefefefefe0304000002043205011f00040000000000" /\
  arg_lines Address.address (ShortSpecs 0 10 "DOT") true (sent_token (repeat 254%N 20) 31 "PolkadotXcm") =
  ["Pallet: PolkadotXcm";
   "  Call: limited_reserve_transfer_assets";
   "    Field Name: dest";
   "      Enum";
   "        Enum Variant Name: V3";
   "          Struct: 2 field(s)";
   "            Field Name: parents";
   "              u8: 0";
   "            Field Name: interior";
   "              Enum";
   "                Enum Variant Name: X1";
   "                  Enum";
   "                    Enum Variant Name: Parachain";
   "                      u32: 1000";
   "    Field Name: beneficiary";
   "      Enum";
   "        Enum Variant Name: V3";
   "          Struct: 2 field(s)";
   "            Field Name: parents";
   "              u8: 0";
   "            Field Name: interior";
   "              Enum";
   "                Enum Variant Name: X1";
   "                  Enum";
   "                    Enum Variant Name: AccountKey20";
   "                      Field Name: network";
   "                        Enum";
   "                          Enum Variant Name: None";
   "                      Field Name: key";
   "                        Sequence u8: fefefefefefefefefefefefefefefefefefefefe";
   "    Field Name: assets";
   "      Enum";
   "        Enum Variant Name: V3";
   "          Sequence: 1 element(s)";
   "            Struct: 2 field(s)";
   "              Field Name: id";
   "                Enum";
   "                  Enum Variant Name: Concrete";
   "                    Struct: 2 field(s)";
   "                      Field Name: parents";
   "                        u8: 0";
   "                      Field Name: interior";
   "                        Enum";
   "                          Enum Variant Name: X2";
   "                            Field Number: 1";
   "                              Enum";
   "                                Enum Variant Name: PalletInstance";
   "                                  u8: 50";
   "                            Field Number: 2";
   "                              Enum";
   "                                Enum Variant Name: GeneralIndex";
   "                                  u128: 1984";
   "              Field Name: fun";
   "                Enum";
   "                  Enum Variant Name: Fungible";
   "                    u128: 1";
   "    Field Name: fee_asset_item";
   "      u32: 0";
   "    Field Name: weight_limit";
   "      Enum";
   "        Enum Variant Name: Unlimited"].
Proof. split; [apply allowedb_ok; vm_compute; reflexivity|]. split; vm_compute; reflexivity. Qed.

Example c83_scheduled : allowed TestPolkadot15.md_types HNone 68 (scheduled 1 period (stored 0 4)) /\
  hex_encode (arg_bytes (scheduled 1 period (stored 0 4))) = "010001000000010100000001000000000004040000" /\
  arg_lines Address.address (ShortSpecs 0 10 "DOT") true (scheduled 1 period (stored 0 4)) =
  ["Pallet: Scheduler";
   "  Call: schedule";
   "    Field Name: when";
   "      u32: 1";
   "    Field Name: maybe_periodic";
   "      Enum";
   "        Enum Variant Name: Some";
   "          Tuple: 2 element(s)";
   "            u32: 1";
   "            u32: 1";
   "    Field Name: priority";
   "      u8: 0";
   "    Field Name: call";
   "      Pallet: System";
   "        Call: set_storage";
   "          Field Name: items";
   "            Sequence: 1 element(s)";
   "              Tuple: 2 element(s)";
   "                Sequence: 0 element(s)";
   "                Sequence: 0 element(s)"].
Proof. split; [apply allowedb_ok; vm_compute; reflexivity|]. split; vm_compute; reflexivity. Qed.
