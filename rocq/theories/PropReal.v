(** The registries of the chains used in the tests of the repository consist of usable types
    only: C62 and C63 say exactly what is parsed with this metadata. *)
From Verif Require Import Base Types SpecFault CheckWf CheckUsable.
From Verif Require TestAcala2012.

Theorem acala2012_usable : forall id, (id < N.of_nat (List.length TestAcala2012.md_types))%N -> usable TestAcala2012.md_types id.
Proof. apply (usable_ranked_ok _ (ranks TestAcala2012.md_types 14)). vm_compute. reflexivity. Qed.
Print Assumptions acala2012_usable.
From Verif Require TestAcala2200.

Theorem acala2200_usable : forall id, (id < N.of_nat (List.length TestAcala2200.md_types))%N -> usable TestAcala2200.md_types id.
Proof. apply (usable_ranked_ok _ (ranks TestAcala2200.md_types 14)). vm_compute. reflexivity. Qed.
Print Assumptions acala2200_usable.
From Verif Require TestAstar.

Theorem astar_usable : forall id, (id < N.of_nat (List.length TestAstar.md_types))%N -> usable TestAstar.md_types id.
Proof. apply (usable_ranked_ok _ (ranks TestAstar.md_types 14)). vm_compute. reflexivity. Qed.
Print Assumptions astar_usable.
From Verif Require TestBifrost.

Theorem bifrost_usable : forall id, (id < N.of_nat (List.length TestBifrost.md_types))%N -> usable TestBifrost.md_types id.
Proof. apply (usable_ranked_ok _ (ranks TestBifrost.md_types 14)). vm_compute. reflexivity. Qed.
Print Assumptions bifrost_usable.
From Verif Require TestPolkadot15.

Theorem polkadot15_usable : forall id, (id < N.of_nat (List.length TestPolkadot15.md_types))%N -> usable TestPolkadot15.md_types id.
Proof. apply (usable_ranked_ok _ (ranks TestPolkadot15.md_types 14)). vm_compute. reflexivity. Qed.
Print Assumptions polkadot15_usable.
From Verif Require TestPolkadot9430.

Theorem polkadot9430_usable : forall id, (id < N.of_nat (List.length TestPolkadot9430.md_types))%N -> usable TestPolkadot9430.md_types id.
Proof. apply (usable_ranked_ok _ (ranks TestPolkadot9430.md_types 14)). vm_compute. reflexivity. Qed.
Print Assumptions polkadot9430_usable.
From Verif Require TestUnchecked15.

Theorem unchecked15_usable : forall id, (id < N.of_nat (List.length TestUnchecked15.md_types))%N -> usable TestUnchecked15.md_types id.
Proof. apply (usable_ranked_ok _ (ranks TestUnchecked15.md_types 14)). vm_compute. reflexivity. Qed.
Print Assumptions unchecked15_usable.
