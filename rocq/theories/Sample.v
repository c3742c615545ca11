(** A concrete registry used to show that the hypotheses of the theorems are met, and a
    decidable sufficient condition for [well_formed]. *)
From Coq Require Import Lia Relations.
From Verif Require Import Base Compact Types Spec SpecWf.
Local Open Scope string_scope.
Local Open Scope list_scope.

Definition inside (t : ty) : list N :=
  match def_of t with
  | Some (TComposite fs) => map f_ty fs
  | Some (TTuple ids) => ids
  | Some (TArray _ el) => [el]
  | Some (TCompact inner) => [inner]
  | _ => []
  end.

Definition mentioned (t : ty) : list N :=
  match t_def t with
  | TComposite fs => map f_ty fs
  | TVariant vs => flat_map (fun v => map f_ty (v_fields v)) vs
  | TSequence el => [el]
  | TArray _ el => [el]
  | TTuple ids => ids
  | TPrimitive _ => []
  | TCompact inner => [inner]
  | TBitSequence s o => [s; o]
  end.

Section Check.
Variable types : list ty.

Definition indexed : list (N * ty) := combine (map N.of_nat (seq 0 (List.length types))) types.

(** Types contain only earlier types; everything mentioned exists; what a compact wraps is
    not looked through. *)
Definition wf_check : bool :=
  forallb (fun x => forallb (fun j => (j <? fst x)%N) (inside (snd x))
                    && forallb (fun j => (j <? N.of_nat (List.length types))%N) (mentioned (snd x))
                    && match transparent (snd x) with
                       | Some (j, true) =>
                           match lookup types j with
                           | Some t' => match transparent t' with None => true | Some _ => false end
                           | None => true
                           end
                       | _ => true
                       end) indexed.

Lemma lookup_indexed id t : lookup types id = Some t -> In (id, t) indexed.
Proof.
  unfold lookup, indexed. destruct (N.ltb_spec id (N.of_nat (List.length types))) as [H|H]; [|discriminate].
  intros Hn. apply nth_error_In with (n := N.to_nat id).
  assert (Hc : forall (l : list ty) k i, nth_error l i = Some t ->
            nth_error (combine (map N.of_nat (seq k (List.length l))) l) i = Some (N.of_nat (k + i), t)).
  { induction l as [|y l IH]; intros k [|i]; try discriminate; cbn [List.length seq map combine nth_error].
    - intros Hx; injection Hx as ->. rewrite Nat.add_0_r. reflexivity.
    - intros Hx. rewrite (IH (S k) i Hx). do 3 f_equal. lia. }
  rewrite (Hc types 0%nat _ Hn). rewrite Nat.add_0_l, N2Nat.id. reflexivity.
Qed.

Lemma inside_contains a c : contains types a c -> exists t, lookup types a = Some t /\ In c (inside t).
Proof.
  intros (t & Hl & H). exists t. split; [exact Hl|]. unfold inside.
  destruct (def_of t) as [[]|]; try contradiction; cbn [In]; auto.
  destruct H as (f & Hf & <-). apply in_map. exact Hf.
Qed.

Lemma mentions_mentioned t j : mentions t j -> In j (mentioned t).
Proof.
  unfold mentions, mentioned. destruct (t_def t); cbn [In]; auto.
  - intros (f & Hf & <-). apply in_map. exact Hf.
  - intros (v & f & Hv & Hf & <-). apply in_flat_map. exists v. split; [exact Hv|]. apply in_map. exact Hf.
  - tauto.
Qed.

Theorem wf_check_ok : wf_check = true -> well_formed types.
Proof.
  unfold wf_check. rewrite forallb_forall. intros H.
  assert (Hx : forall id t, lookup types id = Some t ->
    (forall j, In j (inside t) -> (j < id)%N) /\
    (forall j, In j (mentioned t) -> (j < N.of_nat (List.length types))%N) /\
    (forall j, transparent t = Some (j, true) -> forall t', lookup types j = Some t' -> transparent t' = None)).
  { intros id t Hl. specialize (H _ (lookup_indexed _ _ Hl)). cbn [fst snd] in H.
    apply andb_true_iff in H. destruct H as [H H3]. apply andb_true_iff in H. destruct H as [H1 H2].
    rewrite forallb_forall in H1, H2. repeat split.
    - intros j Hj. apply N.ltb_lt, H1, Hj.
    - intros j Hj. apply N.ltb_lt, H2, Hj.
    - intros j Ht t' Hl'. rewrite Ht, Hl' in H3. destruct (transparent t'); [discriminate|reflexivity]. }
  constructor.
  - assert (Hlt : forall a c, clos_trans N (contains types) a c -> (c < a)%N).
    { intros a c Hc. induction Hc as [a c Hc|a b c _ IH1 _ IH2]; [|lia].
      destruct (inside_contains _ _ Hc) as (t & Hl & Hin). destruct (Hx _ _ Hl) as [Hi _]. apply Hi, Hin. }
    intros id Hc. apply Hlt in Hc. lia.
  - intros id t j Hl Hm. destruct (Hx _ _ Hl) as (_ & Hi & _).
    specialize (Hi j (mentions_mentioned _ _ Hm)). unfold lookup.
    destruct (N.ltb_spec j (N.of_nat (List.length types))) as [Hj|Hj]; [|lia].
    destruct (nth_error types (N.to_nat j)) eqn:Hn; [eauto|]. apply nth_error_None in Hn. lia.
  - intros a b c d (t & Hl & Ht) Hr (t2 & Hl2 & Ht2). destruct (Hx _ _ Hl) as (_ & _ & Hi).
    apply clos_rt_rt1n in Hr. destruct Hr as [|c' c (t3 & b3 & Hl3 & Ht3) _].
    + rewrite (Hi _ Ht _ Hl2) in Ht2. discriminate.
    + rewrite (Hi _ Ht _ Hl3) in Ht3. discriminate.
Qed.
End Check.

(** A registry with most kinds of types; type 9 refers to itself through a vector. *)
Definition nofield (name : string) (id : N) : field := Field (Some name) id None [].

Definition sample : list ty :=
  [ (* 0 *) Ty [] [] (TPrimitive (PrU U32)) [];
    (* 1 *) Ty [] [] (TPrimitive (PrU U8)) [];
    (* 2 *) Ty [] [] (TSequence 1) [];
    (* 3 *) Ty [] [] (TPrimitive (PrU U128)) [];
    (* 4 *) Ty [] [] (TCompact 3) [];
    (* 5 *) Ty [] [] (TPrimitive PrStr) [];
    (* 6 *) Ty ["pallet"; "Account"] [] (TComposite
              [Field (Some "nonce") 0 (Some "Index") ["the nonce"]; nofield "free" 4; nofield "name" 5])
              ["An account."];
    (* 7 *) Ty ["Option"] [] (TVariant [Variant "None" [] 0 []; Variant "Some" [Field None 6 None []] 1 []]) [];
    (* 8 *) Ty [] [] (TSequence 9) [];
    (* 9 *) Ty ["tree"; "Node"] [] (TComposite [nofield "label" 2; nofield "children" 8]) [];
    (* 10 *) Ty [] [] (TTuple [7; 9]%N) [];
    (* 11 *) Ty ["sp_runtime"; "generic"; "era"; "Era"] [] (TVariant []) [];
    (* 12 *) Ty ["bitvec"; "order"; "Lsb0"] [] (TComposite []) [];
    (* 13 *) Ty [] [] (TBitSequence 1 12) [];
    (* 14 *) Ty ["Wrap"] [] (TComposite [Field None 14 None []]) [] ].

(** Without type 14, which contains itself. *)
Definition sample_wf : list ty := firstn 14 sample.

Example sample_well_formed : well_formed sample_wf.
Proof. apply wf_check_ok. vm_compute. reflexivity. Qed.

(** Type 10 is a pair of an optional account and a tree node. *)
Definition sample_value : value :=
  VTuple [VEnum 1 [VStruct [VNum 7; VCompact (VNum (2 ^ 100)); VStr [0x48; 0xE9; 0x1F600]%N]];
          VStruct [VSeq [VNum 1; VNum 2; VNum 255]; VSeq [VStruct [VSeq []; VSeq []]]]]%N.

Definition sample_bytes : bytes :=
  match enc sample_wf false 10 sample_value with Some l => l | None => [] end.

Example sample_enc : enc sample_wf false 10 sample_value = Some sample_bytes /\
  sample_bytes = [1; 7; 0; 0; 0; 39; 0; 0; 0; 0; 0; 0; 0; 0; 0; 0; 0; 0; 16; 28; 72; 195; 169; 240; 159; 152; 128; 12; 1; 2; 255; 4; 0; 0]%N.
Proof. vm_compute. split; reflexivity. Qed.
