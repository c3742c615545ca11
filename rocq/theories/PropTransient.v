(** C42: external memory with transient faults.  Only statements; proofs in
    ProofTransient.v, specification in SpecTransient.v. *)
From Coq Require Import Lia.
From Verif Require Import Base Compact Types Indicators Decode Spec SpecTrack SpecTransient SpecSource Api ProofPeel ProofTransient Sample SampleChain TestWestend TestStatemint.
Local Open Scope string_scope.
Local Open Scope list_scope.

(** C42: whatever accesses fail, the outcome is an external error, or the reading without
    faults except for which enums are recognised as calls, events or bare signatures.  Only
    if the data shows a value of an enum without variants may one succeed where the other
    fails. *)
Theorem c42_same_reading : forall E (b : buffer E) r types data id pos e o q e',
  flaky_copy b data -> flaky_registry r types -> plain_signatures types ->
  decode_as_type_at_position b r id pos e = (o, q, e') ->
  (exists x, o = Err x /\ pext x) \/
  match o, decode_at types data id pos with
  | Ok x, (Ok x0, q0) => q0 = q /\ same_reading x x0
  | Ok x, (Err _, _) => empty_item (x_data x)
  | Err _, (Ok x0, _) => empty_item (x_data x0)
  | Err _, (Err _, _) => True
  | _, _ => False
  end.
Proof. intros E. exact reading_or_empty. Qed.
Print Assumptions c42_same_reading.

(** Without empty pallets there is no such exception. *)
Theorem c42_no_empty_pallets : forall E (b : buffer E) r types data id pos e o q e',
  flaky_copy b data -> flaky_registry r types -> plain_signatures types -> pallets_have_items types ->
  decode_as_type_at_position b r id pos e = (o, q, e') ->
  (exists x, o = Err x /\ pext x) \/
  match o with
  | Ok x => exists x0, decode_at types data id pos = (Ok x0, q) /\ same_reading x x0
  | _ => exists y q', decode_at types data id pos = (Err y, q')
  end.
Proof. intros E. exact same_reading_anyway. Qed.
Print Assumptions c42_no_empty_pallets.

(** The result is exactly that without faults if neither the type nor the types inside it
    are named like multi-signatures, calls or events. *)
Theorem c42_exact : forall E (b : buffer E) r types data S id pos e o q e',
  flaky_copy b data -> flaky_registry r types -> unrecognised types S -> S id ->
  decode_as_type_at_position b r id pos e = (o, q, e') ->
  (exists x, o = Err x /\ pext x) \/
  match o with
  | Ok x => decode_at types data id pos = (Ok x, q)
  | _ => exists q', decode_at types data id pos = (o, q')
  end.
Proof. intros E. exact exact_anyway. Qed.
Print Assumptions c42_exact.

(** An external error is one that the memory reported. *)
Theorem c42_reported : forall E (b : buffer E) (r : registry E) id pos e x q e', good_buffer b -> good_registry r ->
  decode_as_type_at_position b r id pos e = (Err x, q, e') ->
  (forall c, x = PBuffer (BExternal c) -> exists p n f f', rd b p n f = (inr (BExternal c), f')) /\
  (forall c, x = PRegistry (RExternal c) -> exists i f f', resolve r i f = (inr (RExternal c), f')).
Proof. intros E. exact external_reported. Qed.
Print Assumptions c42_reported.

(** ** Memory whose access number [k] fails *)

Definition fails_once (data : bytes) (k : nat) : buffer nat :=
  Buffer nat (List.length data) (fun p n e =>
    (if Nat.eqb e k then inr (BExternal 7) else fst (slice_rd data p n tt), S e)).
Definition types_fail_once (types : list ty) (k : nat) : registry nat :=
  Registry nat (List.length types) (fun id e =>
    (if Nat.eqb e k then inr (RExternal 8) else fst (portable_resolve types id tt), S e)).

Lemma fails_once_flaky data k : flaky_copy (fails_once data k) data.
Proof. split; [reflexivity|]. intros p n e. cbn [rd fails_once]. destruct (Nat.eqb e k); cbn [fst]; eauto. Qed.
Lemma types_fail_once_flaky types k : flaky_registry (types_fail_once types k) types.
Proof. split; [reflexivity|]. intros id e. cbn [resolve types_fail_once]. destruct (Nat.eqb e k); cbn [fst]; eauto. Qed.

(** ** Checks for concrete registries *)

Section Check.
Variable types : list ty.

Fixpoint array_inside (fuel : nat) (id : N) : option N :=
  match fuel with
  | O => None
  | S fuel' =>
      match lookup types id with
      | Some t =>
          match def_of t with
          | Some (TArray _ el) => Some el
          | _ => match transparent t with Some (i, false) => array_inside fuel' i | _ => None end
          end
      | None => None
      end
  end.

Lemma array_inside_straight fuel : forall id el, array_inside fuel id = Some el ->
  exists l, straight types (id :: l) el.
Proof.
  induction fuel as [|fuel IH]; intros id el H; [discriminate|]. cbn [array_inside] in H.
  destruct (lookup types id) as [t|] eqn:Hl; [|discriminate].
  assert (Hrec : match transparent t with Some (i, false) => array_inside fuel i | _ => None end = Some el ->
    exists l, straight types (id :: l) el).
  { destruct (transparent t) as [[i []]|] eqn:Ht; try discriminate. intros Hi. destruct (IH _ _ Hi) as (l & Hs).
    exists (i :: l). eapply st_struct; eauto. }
  destruct (def_of t) as [d|] eqn:Hd; [|exact (Hrec H)]. destruct d; try exact (Hrec H).
  injection H as ->. exists []. eapply st_array; eauto.
Qed.

Definition all_variants (P : ty -> variant -> bool) : bool :=
  forallb (fun t => match t_def t with TVariant vs => forallb (P t) vs | _ => true end) types.

Definition signature_check (t : ty) (v : variant) : bool :=
  match variant_sig types t v, v_fields v with
  | Some _, [f] =>
      match array_inside 5 (f_ty f) with
      | Some el => match lookup types el with
                   | Some te => match def_of te with Some (TPrimitive (PrU U8)) => true | _ => false end
                   | None => false
                   end
      | None => false
      end
  | _, _ => true
  end.
Definition items_check (t : ty) (v : variant) : bool :=
  match pallet_items types t v with Some (_, []) => false | _ => true end.

Lemma lookup_in id t : lookup types id = Some t -> In t types.
Proof. unfold lookup. destruct (_ <? _)%N; [|discriminate]. apply nth_error_In. Qed.

Lemma all_variants_ok P id t vs v : all_variants P = true -> lookup types id = Some t -> t_def t = TVariant vs ->
  In v vs -> P t v = true.
Proof.
  intros H Hl Hd Hv. unfold all_variants in H. rewrite forallb_forall in H. specialize (H t (lookup_in _ _ Hl)).
  rewrite Hd, forallb_forall in H. apply H, Hv.
Qed.

Lemma signature_check_ok : all_variants signature_check = true -> plain_signatures types.
Proof.
  intros H id t vs v f s Hl Hd Hv Hf Hs. pose proof (all_variants_ok _ _ _ _ _ H Hl Hd Hv) as Hc.
  unfold signature_check in Hc. rewrite Hs, Hf in Hc. destruct (array_inside 5 (f_ty f)) as [el|] eqn:Ha; [|discriminate].
  destruct (lookup types el) as [te|] eqn:Hte; [|discriminate]. destruct (def_of te) as [d|] eqn:Hde; [|discriminate].
  destruct (array_inside_straight _ _ _ Ha) as (l & Hst). exists l, el, te. repeat split; auto.
  destruct d as [| | | | |[]| |]; try discriminate. destruct w; try discriminate. exact Hde.
Qed.

Lemma items_check_ok : all_variants items_check = true -> pallets_have_items types.
Proof.
  intros H id t vs v inner items Hl Hd Hv Hp ->. pose proof (all_variants_ok _ _ _ _ _ H Hl Hd Hv) as Hc.
  unfold items_check in Hc. rewrite Hp in Hc. discriminate.
Qed.
End Check.

(** The hypotheses hold for the metadata of Westend and of Statemint. *)
Example westend_plain : plain_signatures TestWestend.md_types.
Proof. apply signature_check_ok. vm_compute. reflexivity. Qed.
Example statemint_plain : plain_signatures TestStatemint.md_types.
Proof. apply signature_check_ok. vm_compute. reflexivity. Qed.
Example chain_plain : plain_signatures chain_types /\ pallets_have_items chain_types.
Proof. split; [apply signature_check_ok|apply items_check_ok]; vm_compute; reflexivity. Qed.

(** Access number [kd] fails if it is one to the data, and number [kt] if it is one to the
    types (both are counted together). *)
Definition flaky_run (types : list ty) (data : bytes) (kd kt : nat) (id : N) :=
  fst (fst (decode_as_type_at_position (fails_once data kd) (types_fail_once types kt) id 0 0%nat)).

Example sample_unrecognised : unrecognised sample_wf (fun id => (id < 14)%N).
Proof.
  intros id t Hid Hl. split.
  - intros j Hj. destruct sample_well_formed as [_ Hm _]. destruct (Hm id t j Hl Hj) as (t' & Ht').
    unfold lookup in Ht'. destruct (j <? N.of_nat (List.length sample_wf))%N eqn:Hlt; [|discriminate]. apply N.ltb_lt in Hlt. exact Hlt.
  - pose proof (lookup_in _ _ _ Hl) as Hin. clear - Hin. cbn in Hin. repeat (destruct Hin as [<-|Hin]; [exact I|]). destruct Hin.
Qed.

Example c42_example :
  (* no access fails *)
  flaky_run chain_types the_call 99 99 9 = Ok (Ext (DCall call_data) [Info "" ["runtime"; "RuntimeCall"] ]) /\
  (* an access to the amount fails *)
  flaky_run chain_types the_call 6 99 9 = Err (PBuffer (BExternal 7)) /\
  (* the first access to the type fails *)
  flaky_run chain_types the_call 99 0 9 = Err (PRegistry (RExternal 8)).
Proof. vm_compute. auto. Qed.

(** ** A fault can go unnoticed and change how the data is shown *)

(** While the index of the pallet is looked at, or its type: the call is shown as an enum. *)
Theorem c42_unnoticed_fault :
  exists x y, x <> y /\ decode_at chain_types the_call 9 0 = (Ok x, 4%nat) /\
  flaky_run chain_types the_call 1 99 9 = Ok y /\ flaky_run chain_types the_call 99 2 9 = Ok y /\
  same_reading y x.
Proof.
  eexists _, _. split; [|split; [vm_compute; reflexivity|split; [vm_compute; reflexivity|split; [vm_compute; reflexivity|] ] ] ]; [discriminate|].
  eexists. split; [constructor; apply fo_same|]. constructor.
  apply (fo_call (Info "Calls." ["pallet_balances"; "pallet"; "Call"])).
  constructor; [|constructor]. constructor. apply fo_same.
Qed.
Print Assumptions c42_unnoticed_fault.

(** A call that carries a call: the fault attributes the inner pallet to the outer call. *)
Definition sudo_types : list ty :=
  [ (* 0 *) Ty ["pallet_x"; "Call"] [] (TVariant [Variant "go" [] 0 []]) [];
    (* 1 *) Ty ["pallet_sudo"; "Call"] [] (TVariant [Variant "sudo" [Field (Some "call") 2 None []] 0 []]) [];
    (* 2 *) Ty ["RuntimeCall"] [] (TVariant [Variant "Sudo" [Field None 1 None []] 0 []; Variant "X" [Field None 0 None []] 1 []]) [] ].
Definition outer (x : outcome parser_err (ext pdata)) : option (string * string) :=
  match x with
  | Ok (Ext (DCall c) _) => Some (ps_pallet_name c, ps_variant_name c)
  | Ok (Ext (DVariant (VData _ _ [FData _ _ _ (Ext (DCall c) _)])) _) => Some (ps_pallet_name c, ps_variant_name c)
  | _ => None
  end.

Theorem c42_other_pallet :
  outer (flaky_run sudo_types [0; 0; 1; 0]%N 99 99 2) = Some ("Sudo", "sudo") /\
  outer (flaky_run sudo_types [0; 0; 1; 0]%N 1 99 2) = Some ("sudo", "X").
Proof. vm_compute. auto. Qed.

(** An empty pallet: the data is accepted only because of the fault. *)
Definition empty_pallet : list ty :=
  [ (* 0 *) Ty ["pallet_x"; "Call"] [] (TVariant []) [];
    (* 1 *) Ty ["RuntimeCall"] [] (TVariant [Variant "X" [Field None 0 None []] 3 []]) [] ].
Theorem c42_accepted_by_fault :
  fst (decode_at empty_pallet [3; 0]%N 1 0) = Err (UnexpectedEnumVariant 1) /\
  exists x, flaky_run empty_pallet [3; 0]%N 1 99 1 = Ok x /\ empty_item (x_data x).
Proof.
  split; [vm_compute; reflexivity|]. eexists. split; [vm_compute; reflexivity|]. cbn [x_data].
  eapply ei_enum; [left; reflexivity|]. constructor.
Qed.
