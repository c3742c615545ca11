(** Which types do not contain themselves, and how deep they go (for the examples of C68). *)
From Coq Require Import Lia ZifyN ZifyNat.
From Verif Require Import Base Types Spec SpecWf SpecDepth Sample ProofSpec ProofWf ProofDepth2 CheckWf.
Local Open Scope list_scope.

Section Check.
Variable types : list ty.

Fixpoint steps (l : list (option N)) : option N :=
  match l with
  | [] => Some 0%N
  | Some a :: r => match steps r with Some b => Some (N.max (N.succ a) b) | None => None end
  | None :: _ => None
  end.

(** Longest chains of the types whose chains have less than [k] steps. *)
Fixpoint depths (k : nat) : list (option N) :=
  match k with
  | O => map (fun _ => None) types
  | S k => let before := depths k in map (fun t => steps (map (fun j => nth (N.to_nat j) before None) (mentioned t))) types
  end.

Lemma steps_ok l n : steps l = Some n -> forall x, In x l -> exists a, x = Some a /\ (a < n)%N.
Proof.
  revert n. induction l as [|[a|] l IH]; intros n; cbn [steps]; try discriminate; [intros _ x []|].
  destruct (steps l) as [b|]; [|discriminate]. intros H x [<-|Hx].
  - exists a. split; [reflexivity|]. injection H as <-. lia.
  - destruct (IH b eq_refl x Hx) as (c & -> & Hc). exists c. split; [reflexivity|]. injection H as <-. lia.
Qed.

Theorem depths_ok k : forall id n, nth (N.to_nat id) (depths k) None = Some n -> forall m, below types id m -> (m <= N.to_nat n)%nat.
Proof.
  induction k as [|k IH]; intros id n; cbn [depths].
  - intros H. exfalso. revert H. generalize (N.to_nat id). clear. intros i. revert i. induction types as [|t l IH]; intros [|i]; cbn [map nth]; try discriminate. apply IH.
  - intros H m Hm. destruct Hm as [id|id t j m Hl Hj Hm]; [lia|].
    assert (G : nth (N.to_nat id) (map (fun t => steps (map (fun j => nth (N.to_nat j) (depths k) None) (mentioned t))) types) None =
      steps (map (fun j => nth (N.to_nat j) (depths k) None) (mentioned t))).
    { apply nth_error_nth. rewrite nth_error_map. unfold lookup in Hl. destruct (_ <? _)%N in Hl; [|discriminate Hl]. rewrite Hl. reflexivity. }
    rewrite G in H. destruct (steps_ok _ _ H (nth (N.to_nat j) (depths k) None)) as (a & Ha & Han).
    { apply (in_map (fun j => nth (N.to_nat j) (depths k) None)). exact (mentions_mentioned _ _ Hj). }
    pose proof (IH j a Ha m Hm). lia.
Qed.
End Check.
