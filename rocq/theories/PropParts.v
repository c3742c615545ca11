(** C73: a composed value is decoded part by part.  Only statements; proofs in ProofParts.v
    and ProofParts2.v, specification in SpecParts.v. *)
From Coq Require Import Lia Relations.
From Verif Require Import Base Compact Types Indicators Decode Spec SpecSource SpecKinds SpecLabels SpecWf SpecParts Api ProofBase ProofLeaf ProofKinds ProofCor ProofParts ProofParts2 ProofParts3 CheckWf Sample SampleChain.
Local Open Scope string_scope.
Local Open Scope list_scope.

(** Decoding the parts one by one always has an outcome, and one only. *)
Theorem c73_parts : forall types data ids pos,
  (exists o q, one_by_one types data ids pos o q /\ returns o) /\
  forall o1 q1 o2 q2, one_by_one types data ids pos o1 q1 -> one_by_one types data ids pos o2 q2 -> o1 = o2 /\ q1 = q2.
Proof. intros types data ids pos. split; [apply one_by_one_total|intros; eapply one_by_one_unique; eassumption]. Qed.
Print Assumptions c73_parts.

Theorem c73_struct : forall types data id t fields pos o q o' q',
  lookup types id = Some t -> def_of t = Some (TComposite fields) ->
  decode_at types data id pos = (o, q) -> one_by_one types data (map f_ty fields) pos o' q' ->
  composed types (a_struct t fields) o' q' o q.
Proof. exact struct_parts. Qed.
Print Assumptions c73_struct.

Theorem c73_tuple : forall types data id t ids pos o q o' q',
  lookup types id = Some t -> def_of t = Some (TTuple ids) ->
  decode_at types data id pos = (o, q) -> one_by_one types data ids pos o' q' ->
  composed types (a_tuple t) o' q' o q.
Proof. exact tuple_is_parts. Qed.
Print Assumptions c73_tuple.

Theorem c73_array : forall types data id t n el infos final pos o q o' q',
  lookup types id = Some t -> def_of t = Some (TArray n el) ->
  peel_from types [] el = Some (infos, final) ->
  decode_at types data id pos = (o, q) -> one_by_one types data (repeat el (N.to_nat n)) pos o' q' ->
  composed types (a_sequence types t el infos) o' q' o q.
Proof. exact array_parts. Qed.
Print Assumptions c73_array.

(** A vector: its length, then its elements. *)
Theorem c73_vector : forall types id t n el infos final skipped rest o q o' q',
  lookup types id = Some t -> def_of t = Some (TSequence el) ->
  peel_from types [] el = Some (infos, final) -> (n < 2 ^ 32)%N ->
  let data := skipped ++ compact_enc n ++ rest in is_bytes data ->
  decode_at types data id (List.length skipped) = (o, q) ->
  one_by_one types data (repeat el (N.to_nat n)) (List.length (skipped ++ compact_enc n)) o' q' ->
  composed types (a_sequence types t el infos) o' q' o q.
Proof.
  intros types id t n el infos final sk rest o q o' q' Hl Hd Hp Hn data Hb H H'. unfold data in *. clear data. rewrite app_length in H'.
  eapply vector_parts; try eassumption; [unfold fits; apply N.ltb_lt; exact Hn|]. apply has_mid.
Qed.
Print Assumptions c73_vector.

(** An element whose type is no wrapper is there as decoded on its own. *)
Theorem c73_plain_elements : forall types el te, lookup types el = Some te -> transparent te = None ->
  peel_from types [] el = Some (own_info te, el) /\
  forall t l x, a_sequence types t el (own_info te) l x <-> x = Ext (sequence_of (own_info te) (map x_data l)) (own_info t).
Proof.
  intros types el te Hl Ht. split.
  - unfold peel_from. cbn [peel existsb]. rewrite Hl, Ht. reflexivity.
  - intros t l x. split.
    + intros (ds & Hd & ->). do 2 f_equal. induction Hd as [|y d l ds H Hd IH]; [reflexivity|]. cbn [map]. f_equal; [|exact IH].
      inversion H; subst; congruence.
    + intros ->. exists (map x_data l). split; [|reflexivity]. induction l as [|y l IH]; cbn [map]; constructor; [|exact IH].
      eapply UW_plain; eassumption.
Qed.
Print Assumptions c73_plain_elements.

(** An enum: the index of the variant, then its fields.  (The two exceptions are signatures
    in `MultiSignature`, shown as such, and calls and events, below.) *)
Theorem c73_enum : forall types data id t vs i var pos o q o' q',
  lookup types id = Some t -> def_of t = Some (TVariant vs) ->
  nth_error data pos = Some i -> first_with vs i var ->
  variant_sig types t var = None -> pallet_items types t var = None ->
  decode_at types data id pos = (o, q) -> one_by_one types data (map f_ty (v_fields var)) (pos + 1) o' q' ->
  composed types (an_enum t var) o' q' o q.
Proof. exact enum_parts. Qed.
Print Assumptions c73_enum.

(** A call or event: the index of the pallet, the index of the item, then its fields. *)
Theorem c73_call_or_event : forall types data id t vs i pallet inner items j item pos o q o' q',
  lookup types id = Some t -> def_of t = Some (TVariant vs) ->
  nth_error data pos = Some i -> first_with vs i pallet -> pallet_items types t pallet = Some (inner, items) ->
  nth_error data (pos + 1) = Some j -> first_with items j item ->
  decode_at types data id pos = (o, q) -> one_by_one types data (map f_ty (v_fields item)) (pos + 2) o' q' ->
  composed types (a_call_or_event t inner pallet item) o' q' o q.
Proof. exact item_parts. Qed.
Print Assumptions c73_call_or_event.

(** Without types that contain themselves there is no exception. *)
Theorem c73_acyclic : forall types made l q' o q, acyclic types ->
  composed types made l q' o q ->
  q = q' /\
  match l with
  | Ok parts => exists x, o = Ok x /\ made parts x
  | Err y => o = Err y
  | _ => False
  end.
Proof.
  intros types made l q' o q Ha [(y & -> & i & -> & Hi)|H]; [|exact H]. destruct (Ha i Hi).
Qed.
Print Assumptions c73_acyclic.

(** ** Witnesses *)

(** The account of the sample chain: its three fields. *)
Definition account_bytes : bytes := [7; 0; 0; 0; 40; 4; 65]%N.
Definition the_account : ty := Ty ["pallet"; "Account"] [] (TComposite
  [Field (Some "nonce") 0 (Some "Index") ["the nonce"]; nofield "free" 4; nofield "name" 5]) ["An account."].

Example c73_account : exists x l,
  lookup sample_wf 6 = Some the_account /\
  def_of the_account = Some (TComposite [Field (Some "nonce") 0 (Some "Index") ["the nonce"]; nofield "free" 4; nofield "name" 5]) /\
  decode_at sample_wf account_bytes 6 0 = (Ok x, 7) /\
  one_by_one sample_wf account_bytes [0; 4; 5]%N 0 (Ok l) 7 /\
  a_struct the_account [Field (Some "nonce") 0 (Some "Index") ["the nonce"]; nofield "free" 4; nofield "name" 5] l x /\
  List.length l = 3.
Proof.
  assert (H : exists x, decode_at sample_wf account_bytes 6 0 = (Ok x, 7)) by (vm_compute; eexists; reflexivity).
  destruct H as [x Hx].
  assert (H : exists l, one_by_one sample_wf account_bytes [0; 4; 5]%N 0 (Ok l) 7 /\ List.length l = 3).
  { assert (A1 : exists a, decode_at sample_wf account_bytes 0 0 = (Ok a, 4)) by (vm_compute; eexists; reflexivity).
    assert (A2 : exists a, decode_at sample_wf account_bytes 4 4 = (Ok a, 5)) by (vm_compute; eexists; reflexivity).
    assert (A3 : exists a, decode_at sample_wf account_bytes 5 5 = (Ok a, 7)) by (vm_compute; eexists; reflexivity).
    destruct A1 as [a1 A1], A2 as [a2 A2], A3 as [a3 A3]. exists [a1; a2; a3]. split; [|reflexivity].
    eapply OB_all; [exact A1|]. eapply OB_all; [exact A2|]. eapply OB_all; [exact A3|]. constructor. }
  destruct H as (l & Hl & Hn). exists x, l.
  assert (Ht : lookup sample_wf 6 = Some the_account) by (vm_compute; reflexivity).
  assert (Hd : def_of the_account = Some (TComposite [Field (Some "nonce") 0 (Some "Index") ["the nonce"]; nofield "free" 4; nofield "name" 5])) by (vm_compute; reflexivity).
  repeat (split; [assumption|]). split; [|exact Hn].
  pose proof (c73_struct _ _ _ _ _ _ _ _ _ _ Ht Hd Hx Hl) as H.
  apply c73_acyclic in H; [|exact (wf_acyclic _ sample_well_formed)].
  destruct H as [_ (y & Hy & Hm)]. injection Hy as <-. exact Hm.
Qed.

(** The other theorems: data that meets their hypotheses. *)
Ltac one_by_one := repeat (eapply OB_all; [vm_compute; reflexivity|]); constructor.
Definition array_types : list ty :=
  [ Ty [] [] (TPrimitive (PrU U16)) []; Ty ["Pixels"] [] (TArray 3 0) [] ].

Example c73_met :
  (* a pair *)
  (lookup sample_wf 10 = Some (Ty [] [] (TTuple [7; 9]%N) []) /\ def_of (Ty [] [] (TTuple [7; 9]%N) []) = Some (TTuple [7; 9]%N) /\
   exists l, one_by_one sample_wf sample_bytes [7; 9]%N 0 (Ok l) (List.length sample_bytes)) /\
  (* an array *)
  (lookup array_types 1 = Some (Ty ["Pixels"] [] (TArray 3 0) []) /\ def_of (Ty ["Pixels"] [] (TArray 3 0) []) = Some (TArray 3 0) /\
   lookup array_types 0 = Some (Ty [] [] (TPrimitive (PrU U16)) []) /\ peel_from array_types [] 0 = Some ([], 0%N) /\
   exists l, one_by_one array_types [1; 0; 2; 0; 3; 0]%N (repeat 0 3)%N 0 (Ok l) 6) /\
  (* an array cut short *)
  (exists y q, one_by_one array_types [1; 0; 2; 0; 3]%N (repeat 0 3)%N 0 (Err y) q) /\
  (* a vector *)
  (lookup sample_wf 2 = Some (Ty [] [] (TSequence 1) []) /\ def_of (Ty [] [] (TSequence 1) []) = Some (TSequence 1) /\
   lookup sample_wf 1 = Some (Ty [] [] (TPrimitive (PrU U8)) []) /\ peel_from sample_wf [] 1 = Some ([], 1%N) /\
   exists l, one_by_one sample_wf ([77] ++ compact_enc 2 ++ [5; 6])%N (repeat 1 2)%N 2 (Ok l) 4) /\
  (* an enum *)
  (let t := Ty ["Option"] [] (TVariant [Variant "None" [] 0 []; Variant "Some" [Field None 6 None []] 1 []]) [] in
   let v := Variant "Some" [Field None 6 None []] 1 [] in
   lookup sample_wf 7 = Some t /\ first_with [Variant "None" [] 0 []; v] 1 v /\
   def_of t = Some (TVariant [Variant "None" [] 0 []; v]) /\ variant_sig sample_wf t v = None /\ pallet_items sample_wf t v = None /\
   exists l, one_by_one sample_wf (1%N :: account_bytes) [6]%N 1 (Ok l) 8) /\
  (* a call *)
  (exists t inner vs items pallet v l,
   lookup chain_types 9 = Some t /\ def_of t = Some (TVariant vs) /\ first_with vs 4 pallet /\ v_name pallet = "Balances" /\
   pallet_items chain_types t pallet = Some (inner, items) /\ first_with items 3 v /\ v_name v = "transfer" /\
   one_by_one chain_types the_call (map f_ty (v_fields v)) 2 (Ok l) 4 /\ List.length l = 1).
Proof.
  repeat match goal with |- _ /\ _ => split | |- let _ := _ in _ => intro end; try reflexivity.
  - eexists. one_by_one.
  - eexists. one_by_one.
  - do 2 eexists. do 2 (eapply OB_later; [vm_compute; reflexivity|]). eapply OB_fails. vm_compute. reflexivity.
  - eexists. one_by_one.
  - apply by_index_first. reflexivity.
  - eexists. one_by_one.
  - do 7 eexists. split; [reflexivity|]. split; [reflexivity|]. split; [apply by_index_first; reflexivity|]. split; [reflexivity|].
    split; [reflexivity|]. split; [apply by_index_first; reflexivity|]. split; [reflexivity|]. split; [one_by_one|reflexivity].
Qed.

(** A vector of wrappers: each Meters wraps a compact u32. *)
Definition wrapper_types : list ty :=
  [ (* 0 *) Ty [] [] (TPrimitive (PrU U32)) [];
    (* 1 *) Ty [] [] (TCompact 0) [];
    (* 2 *) Ty ["Meters"] [] (TComposite [nofield "value" 1]) ["A length."];
    (* 3 *) Ty [] [] (TSequence 2) [] ].
Definition some_meters (n : N) : ext pdata :=
  Ext (DComposite [FData (Some "value") None "" (Ext (DUInt U32 n SuNone) [])]) [Info "A length." ["Meters"] ].
Example c73_wrapped :
  peel_from wrapper_types [] 2 = Some ([Info "A length." ["Meters"] ], 0%N) /\
  one_by_one wrapper_types [8; 20; 24]%N [2; 2]%N 1 (Ok [some_meters 5; some_meters 6]) 3 /\
  decode_at wrapper_types [8; 20; 24]%N 3 0 =
    (Ok (Ext (sequence_of [Info "A length." ["Meters"] ] [DUInt U32 5 SuNone; DUInt U32 6 SuNone]) []), 3) /\
  unwrapped wrapper_types 2 (x_data (some_meters 5)) (DUInt U32 5 SuNone).
Proof.
  split; [reflexivity|]. split; [one_by_one|]. split; [vm_compute; reflexivity|].
  eapply UW_struct with (f := nofield "value" 1); try reflexivity.
  eapply UW_compact; try reflexivity. eapply UW_plain; reflexivity.
Qed.

(** The exception is real: a value of S contains an array of no S and a
    byte.  It is decoded on its own, but not as the field of T. *)
Definition cyclic_types : list ty :=
  [ (* 0 *) Ty [] [] (TPrimitive (PrU U8)) [];
    (* 1 *) Ty [] [] (TArray 0 2) [];
    (* 2 *) Ty ["S"] [] (TComposite [nofield "a" 1; nofield "b" 0]) [];
    (* 3 *) Ty ["T"] [] (TComposite [nofield "x" 2]) [] ].
Example c73_cyclic :
  (exists l, one_by_one cyclic_types [9]%N [2]%N 0 (Ok l) 1) /\
  fst (decode_at cyclic_types [9]%N 3 0) = Err (PRegistry (RInternal (CyclicMetadata 2))).
Proof.
  split; [|vm_compute; reflexivity].
  assert (H : exists x, decode_at cyclic_types [9]%N 2 0 = (Ok x, 1)) by (vm_compute; eexists; reflexivity).
  destruct H as [x H]. exists [x]. eapply OB_all; [exact H|constructor].
Qed.
