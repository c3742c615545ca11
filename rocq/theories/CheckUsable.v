(** A decidable sufficient condition for [usable], met by real metadata. *)
From Coq Require Import Lia Relations.
From Verif Require Import Base Compact Types Spec SpecReach SpecKinds SpecBlame SpecFault Sample ProofSpec CheckWf.
Local Open Scope list_scope.

Section Check.
Variable types : list ty.

Fixpoint compactable_check (fuel : nat) (id : N) : bool :=
  match fuel with
  | O => false
  | S fuel' =>
      match lookup types id with
      | None => false
      | Some t =>
          match classify t with
          | SpPer _ => true
          | _ =>
              match def_of t with
              | Some (TPrimitive (PrU _)) | Some (TComposite []) | Some (TTuple []) => true
              | Some (TComposite [f]) => compactable_check fuel' (f_ty f)
              | Some (TTuple [i]) => compactable_check fuel' i
              | _ => false
              end
          end
      end
  end.

Lemma compactable_check_ok fuel : forall id, compactable_check fuel id = true -> compactable types id.
Proof.
  induction fuel as [|fuel IH]; intros id H; [discriminate|]. cbn [compactable_check] in H.
  destruct (lookup types id) as [t|] eqn:Hl; [|discriminate].
  destruct (classify t) eqn:Hc; try (apply (cp_per _ _ _ _ Hl Hc)).
  all: destruct (def_of t) as [d|] eqn:Hd; [|discriminate].
  all: destruct d as [ [|f0 [|] ] | | | | [|m0 [|] ] | [] | | ]; try discriminate.
  all: first [exact (cp_unit_struct _ _ _ Hl Hd)|exact (cp_struct _ _ _ _ Hl Hd (IH _ H))|exact (cp_unit _ _ _ Hl Hd)
    |exact (cp_tuple _ _ _ _ Hl Hd (IH _ H))|exact (cp_uint _ _ _ _ Hl Hd)].
Qed.

(** Ranks decrease along containment, everything needed is there, compacts and bit sequences are
    of what they can be of. *)
Definition usable_ranked (r : list N) : bool :=
  forallb (fun x => forallb (fun j => (rank_of r j <? rank_of r (fst x))%N) (inside (snd x))
                    && forallb (fun j => (j <? N.of_nat (List.length types))%N) (needs (snd x))
                    && match def_of (snd x) with
                       | Some (TCompact inner) => compactable_check 20 inner
                       | Some (TBitSequence store order) =>
                           match bit_store types store, bit_order_of types order with Some _, Some _ => true | _, _ => false end
                       | _ => true
                       end) (indexed types).

Theorem usable_ranked_ok r : usable_ranked r = true -> forall id, (id < N.of_nat (List.length types))%N -> usable types id.
Proof.
  unfold usable_ranked. rewrite forallb_forall. intros H.
  assert (Hx : forall id t, lookup types id = Some t ->
    (forall j, In j (inside t) -> (rank_of r j < rank_of r id)%N) /\
    (forall j, In j (needs t) -> (j < N.of_nat (List.length types))%N) /\
    (forall inner, def_of t = Some (TCompact inner) -> compactable types inner) /\
    (forall store order, def_of t = Some (TBitSequence store order) -> bit_store types store <> None /\ bit_order_of types order <> None)).
  { intros id t Hl. specialize (H _ (lookup_indexed _ _ _ Hl)). cbn [fst snd] in H.
    apply andb_true_iff in H. destruct H as [H H3]. apply andb_true_iff in H. destruct H as [H1 H2].
    rewrite forallb_forall in H1, H2. split; [intros j Hj; apply N.ltb_lt, H1, Hj|]. split; [intros j Hj; apply N.ltb_lt, H2, Hj|]. split.
    - intros inner Hd. rewrite Hd in H3. exact (compactable_check_ok _ _ H3).
    - intros store order Hd. rewrite Hd in H3. destruct (bit_store types store), (bit_order_of types order); try discriminate. split; discriminate. }
  assert (Hlt : forall a c, clos_trans N (contains types) a c -> (rank_of r c < rank_of r a)%N).
  { intros a c Hc. induction Hc as [a c Hc|a b c _ IH1 _ IH2]; [|lia].
    destruct (inside_contains _ _ _ Hc) as (t & Hl & Hin). destruct (Hx _ _ Hl) as [Hi _]. apply Hi, Hin. }
  assert (Hres : forall j, (j < N.of_nat (List.length types))%N -> exists t, lookup types j = Some t).
  { intros j Hj. unfold lookup. destruct (N.ltb_spec j (N.of_nat (List.length types))) as [_|Hj2]; [|lia].
    destruct (nth_error types (N.to_nat j)) eqn:Hn; [eauto|]. apply nth_error_None in Hn. lia. }
  intros id Hid i Hn.
  assert (Hi : (i < N.of_nat (List.length types))%N).
  { induction Hn as [|i t j Hn IH Hl Hin]; [exact Hid|]. exact (proj1 (proj2 (Hx _ _ Hl)) _ Hin). }
  destruct (Hres _ Hi) as (t & Hl). exists t. split; [exact Hl|]. destruct (Hx _ _ Hl) as (_ & _ & H3 & H4).
  split; [intros Hc; apply Hlt in Hc; lia|]. split; assumption.
Qed.
End Check.
