(** C83: nearly all calls of the seven chains take arguments of the usual kinds.  For every call of
    a chain but those listed, arguments that fit its types are made up and checked. *)
From Verif Require Import Base Compact Types Indicators Decode Spec SpecTransfer SpecOrder PropTransfer PropTransferReal PropOrder PropOrderReal.
From Verif Require TestWestend TestPolkadot9430 TestPolkadot15 TestUnchecked15 TestAstar TestBifrost TestStatemint.
Local Open Scope string_scope.
Local Open Scope list_scope.

(** The calls of a chain: [p] is the pallet, [it] the call. *)
Definition call_of (types : list ty) (call_ty : N) (p it : variant) : Prop :=
  exists t pallets f inner items, lookup types call_ty = Some t /\ t_def t = TVariant pallets /\ In p pallets /\ v_fields p = [f] /\
    lookup types (f_ty f) = Some inner /\ t_def inner = TVariant items /\ In it items.

(** All calls but the [others] can be given with some arguments. *)
Definition calls_covered (types : list ty) (call_ty : N) (others : list (string * string)) : Prop :=
  forall p it, call_of types call_ty p it -> ~ In (v_name p, v_name it) others ->
  exists l, allowed types HNone call_ty (Order (v_index p) (v_index it) (v_name p) (v_name it) l).

(** ** Making up arguments *)

Fixpoint first_some {A B} (l : list A) (f : A -> option B) : option B :=
  match l with [] => None | a :: r => match f a with Some b => Some b | None => first_some r f end end.
Fixpoint all_of {A B} (l : list A) (f : A -> option B) : option (list B) :=
  match l with
  | [] => Some []
  | a :: r => match f a with None => None | Some b => match all_of r f with Some q => Some (b :: q) | None => None end end
  end.
Definition width_of (t : ty) : option uwidth := match t_def t with TPrimitive (PrU w) => Some w | _ => None end.

(** Some value of a type, found by going [k] types deep; the first variant of an enum that works is taken, or the [last]. *)
Fixpoint made_up (k : nat) (types : list ty) (last : bool) (h : hint) (id : N) {struct k} : option arg :=
  match k with
  | O => None
  | S k =>
      let named fs := all_of fs (fun f => match f_name f with Some n => option_map (pair n) (made_up k types last (field_label f) (f_ty f)) | None => None end) in
      let unnamed fs := all_of fs (fun f => match f_name f with None => made_up k types last (field_label f) (f_ty f) | _ => None end) in
      match lookup types id with
      | None => None
      | Some t =>
          match classify t, t_def t with
          | SpRaw KAccountId32, _ => Some (Account (repeat 7%N 32))
          | SpRaw k, _ => Some (Raw k (repeat 7%N (raw_len k)))
          | SpPer k, _ => Some (Part false k 1)
          | SpHash, _ => Some (Hash (repeat 7%N 32))
          | SpItem ItCall, TVariant pallets =>
              first_some pallets (fun p => match v_fields p with
                | [f] =>
                    match lookup types (f_ty f) with
                    | Some i =>
                        match t_def i with
                        | TVariant items => first_some items (fun it => match v_fields it with [] => Some (Order (v_index p) (v_index it) (v_name p) (v_name it) []) | _ => None end)
                        | _ => None
                        end
                    | None => None
                    end
                | _ => None
                end)
          | SpPlain, TPrimitive PrBool => Some (Truth true)
          | SpPlain, TPrimitive (PrU w) => Some (match h with HFieldBalance => Money false 1 | _ => Number false w 1 end)
          | SpPlain, TCompact j =>
              match lookup types j with
              | Some tj => match classify tj, t_def tj with SpPer k, _ => Some (Part true k 1) | SpPlain, TComposite [f] => match lookup types (f_ty f) with Some tf => option_map (fun w => Packed w 1) (width_of tf) | None => None end | _, _ => match width_of tj with Some w => Some (match h with HFieldBalance => Money true 1 | _ => Number true w 1 end) | None => None end end
              | None => None
              end
          | SpPlain, TSequence el =>
              match lookup types el with
              | Some te => match width_of te with Some U8 => Some (Bytes []) | _ => option_map (fun a => Several [a]) (made_up k types last HNone el) end
              | None => None
              end
          | SpPlain, TArray n el =>
              match lookup types el with
              | Some te => match width_of te with Some U8 => Some (Fixed (repeat 7%N (N.to_nat n))) | _ => None end
              | None => None
              end
          | SpPlain, TTuple ids =>
              option_map Tuple (all_of ids (fun i => match lookup types i with Some ti => made_up k types last (path_label ti) i | None => None end))
          | SpPlain, TComposite [f] =>
              match f_name f with
              | None => option_map Inside (made_up k types last (match h with HNone => field_label f | _ => h end) (f_ty f))
              | _ => None
              end
          | SpPlain, TComposite fs => option_map Struct (named fs)
          | SpPlain, TVariant vs =>
              first_some (if last then rev vs else vs) (fun v => match v_fields v with
                | [] => Some (Choice (v_index v) (v_name v))
                | [f] =>
                    match f_name f with
                    | None => option_map (Given (v_index v) (v_name v)) (made_up k types last (field_label f) (f_ty f))
                    | Some _ => option_map (Made (v_index v) (v_name v)) (named (v_fields v))
                    end
                | f :: _ =>
                    match f_name f with
                    | None => option_map (Numbered (v_index v) (v_name v)) (unnamed (v_fields v))
                    | _ => option_map (Made (v_index v) (v_name v)) (named (v_fields v))
                    end
                end)
          | _, _ => None
          end
      end
  end.

Definition covered_with (types : list ty) (last : bool) (call_ty : N) (p it : variant) : bool :=
  match all_of (v_fields it) (fun f => match f_name f with Some n => option_map (pair n) (made_up 20 types last (field_label f) (f_ty f)) | None => None end) with
  | Some l => allowedb types HNone call_ty (Order (v_index p) (v_index it) (v_name p) (v_name it) l)
  | None => false
  end.

Definition is_other (others : list (string * string)) (p it : variant) : bool :=
  existsb (fun x => String.eqb (fst x) (v_name p) && String.eqb (snd x) (v_name it)) others.

Definition coveredb (types : list ty) (call_ty : N) (others : list (string * string)) : bool :=
  match lookup types call_ty with
  | Some t =>
      match t_def t with
      | TVariant pallets => forallb (fun p => match v_fields p with
          | [f] =>
              match lookup types (f_ty f) with
              | Some i =>
                  match t_def i with
                  | TVariant items => forallb (fun it => is_other others p it || covered_with types false call_ty p it || covered_with types true call_ty p it) items
                  | _ => true
                  end
              | None => true
              end
          | _ => true
          end) pallets
      | _ => true
      end
  | None => true
  end.

Lemma covered_with_ok types last call_ty p it : covered_with types last call_ty p it = true ->
  exists l, allowed types HNone call_ty (Order (v_index p) (v_index it) (v_name p) (v_name it) l).
Proof.
  unfold covered_with. destruct (all_of _ _) as [l|]; [|discriminate]. intros H. exists l. exact (allowedb_ok types _ _ _ H).
Qed.

Theorem c83_covered : forall types call_ty others, coveredb types call_ty others = true -> calls_covered types call_ty others.
Proof.
  intros types call_ty others H p it (t & pallets & f & inner & items & Hl & Hd & Hp & Hf & Hi & Hdi & Hit) Hno.
  unfold coveredb in H. rewrite Hl, Hd, forallb_forall in H. specialize (H p Hp). rewrite Hf, Hi, Hdi, forallb_forall in H. specialize (H it Hit).
  apply orb_prop in H. destruct H as [H|H]; [|exact (covered_with_ok _ _ _ _ _ H)].
  apply orb_prop in H. destruct H as [H|H]; [|exact (covered_with_ok _ _ _ _ _ H)].
  unfold is_other in H. apply existsb_exists in H. destruct H as ([a b] & Hin & H). cbn [fst snd] in H. apply andb_prop in H. destruct H as [H1 H2].
  apply String.eqb_eq in H1. apply String.eqb_eq in H2. rewrite H1, H2 in Hin. contradiction (Hno Hin).
Qed.
Print Assumptions c83_covered.

(** ** Chains *)

(** TestWestend, spec version 9111: all of its 208 calls but these 11. *)
Definition westend_others : list (string * string) :=
  [("System", "kill_storage"); ("Babe", "report_equivocation"); ("Babe", "report_equivocation_unsigned"); ("Authorship", "set_uncles"); ("Staking", "cancel_deferred_slash");
   ("Grandpa", "report_equivocation"); ("Grandpa", "report_equivocation_unsigned"); ("ImOnline", "heartbeat"); ("ElectionProviderMultiPhase", "submit_unsigned");
   ("ElectionProviderMultiPhase", "submit"); ("ParaInherent", "enter")].
Theorem c83_westend_calls : calls_covered TestWestend.md_types 267 westend_others.
Proof. apply c83_covered. vm_compute. reflexivity. Qed.
Print Assumptions c83_westend_calls.

(** TestPolkadot9430, spec version 9430: all of its 334 calls but these 11. *)
Definition polkadot9430_others : list (string * string) :=
  [("System", "kill_storage"); ("Babe", "report_equivocation"); ("Babe", "report_equivocation_unsigned"); ("Staking", "cancel_deferred_slash"); ("Grandpa",
   "report_equivocation"); ("Grandpa", "report_equivocation_unsigned"); ("ImOnline", "heartbeat"); ("ElectionProviderMultiPhase", "submit_unsigned");
   ("ElectionProviderMultiPhase", "submit"); ("ParaInherent", "enter"); ("ParasSlashing", "report_dispute_lost_unsigned")].
Theorem c83_polkadot9430_calls : calls_covered TestPolkadot9430.md_types 79 polkadot9430_others.
Proof. apply c83_covered. vm_compute. reflexivity. Qed.
Print Assumptions c83_polkadot9430_calls.

(** TestPolkadot15, spec version 1000001: all of its 288 calls but these 10. *)
Definition polkadot15_others : list (string * string) :=
  [("System", "kill_storage"); ("Babe", "report_equivocation"); ("Babe", "report_equivocation_unsigned"); ("Staking", "cancel_deferred_slash"); ("Grandpa",
   "report_equivocation"); ("Grandpa", "report_equivocation_unsigned"); ("ElectionProviderMultiPhase", "submit_unsigned"); ("ElectionProviderMultiPhase", "submit");
   ("ParaInherent", "enter"); ("ParasSlashing", "report_dispute_lost_unsigned")].
Theorem c83_polkadot15_calls : calls_covered TestPolkadot15.md_types 68 polkadot15_others.
Proof. apply c83_covered. vm_compute. reflexivity. Qed.
Print Assumptions c83_polkadot15_calls.

(** TestUnchecked15, spec version 1003003: all of its 318 calls but these 17. *)
Definition polkadot1003003_others : list (string * string) :=
  [("System", "kill_storage"); ("Preimage", "ensure_updated"); ("Babe", "report_equivocation"); ("Babe", "report_equivocation_unsigned"); ("Staking",
   "cancel_deferred_slash"); ("Grandpa", "report_equivocation"); ("Grandpa", "report_equivocation_unsigned"); ("Parameters", "set_parameter"); ("ElectionProviderMultiPhase",
   "submit_unsigned"); ("ElectionProviderMultiPhase", "submit"); ("Configuration", "set_approval_voting_params"); ("ParaInherent", "enter"); ("ParasSlashing",
   "report_dispute_lost_unsigned"); ("StateTrieMigration", "migrate_custom_top"); ("StateTrieMigration", "migrate_custom_child"); ("Beefy", "report_equivocation"); ("Beefy",
   "report_equivocation_unsigned")].
Theorem c83_polkadot1003003_calls : calls_covered TestUnchecked15.md_types 93 polkadot1003003_others.
Proof. apply c83_covered. vm_compute. reflexivity. Qed.
Print Assumptions c83_polkadot1003003_calls.

(** TestAstar, spec version 66: all of its 172 calls but these 9. *)
Definition astar_others : list (string * string) :=
  [("System", "kill_storage"); ("ParachainSystem", "set_validation_data"); ("Session", "set_keys"); ("EVM", "call"); ("EVM", "create"); ("EVM", "create2"); ("Ethereum",
   "transact"); ("EthCall", "call"); ("BaseFee", "set_base_fee_per_gas")].
Theorem c83_astar_calls : calls_covered TestAstar.md_types 164 astar_others.
Proof. apply c83_covered. vm_compute. reflexivity. Qed.
Print Assumptions c83_astar_calls.

(** TestBifrost, spec version 982: all of its 431 calls but these 12. *)
Definition bifrost_others : list (string * string) :=
  [("System", "kill_storage"); ("ParachainSystem", "set_validation_data"); ("Session", "set_keys"); ("Currencies", "update_balance"); ("MerkleDistributor", "claim");
   ("TokenConversion", "set_exchange_rate"); ("Farming", "add_boost_pool_whitelist"); ("Farming", "set_next_round_whitelist"); ("StablePool", "create_pool"); ("StablePool",
   "add_liquidity"); ("StablePool", "redeem_proportion"); ("StablePool", "redeem_multi")].
Theorem c83_bifrost_calls : calls_covered TestBifrost.md_types 58 bifrost_others.
Proof. apply c83_covered. vm_compute. reflexivity. Qed.
Print Assumptions c83_bifrost_calls.

(** TestStatemint, spec version 1002000: all of its 242 calls but these 9. *)
Definition statemint_others : list (string * string) :=
  [("System", "kill_storage"); ("ParachainSystem", "set_validation_data"); ("Session", "set_keys"); ("Uniques", "redeposit"); ("Nfts", "force_mint"); ("Nfts", "redeposit");
   ("Nfts", "cancel_item_attributes_approval"); ("Nfts", "mint_pre_signed"); ("Nfts", "set_attributes_pre_signed")].
Theorem c83_statemint_calls : calls_covered TestStatemint.md_types 343 statemint_others.
Proof. apply c83_covered. vm_compute. reflexivity. Qed.
Print Assumptions c83_statemint_calls.
