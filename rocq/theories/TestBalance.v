(** The tests of /repo/src/printing_balance.rs:366-665 replayed on the model (tests of
    the fidelity of the model, not proofs of properties). *)
From Verif Require Import Base Balance. Local Open Scope string_scope. Local Open Scope N_scope.
Example t0 : convert_balance_pretty 0 0 "X" = Some (Currency "0" "X"). Proof. vm_compute. reflexivity. Qed.
Example t1 : convert_balance_pretty 0 1 "X" = Some (Currency "0.0" "X"). Proof. vm_compute. reflexivity. Qed.
Example t2 : convert_balance_pretty 0 2 "X" = Some (Currency "0.00" "X"). Proof. vm_compute. reflexivity. Qed.
Example t3 : convert_balance_pretty 0 3 "X" = Some (Currency "0" "mX"). Proof. vm_compute. reflexivity. Qed.
Example t4 : convert_balance_pretty 0 4 "X" = Some (Currency "0.0" "mX"). Proof. vm_compute. reflexivity. Qed.
Example t5 : convert_balance_pretty 0 20 "X" = Some (Currency "0.00" "aX"). Proof. vm_compute. reflexivity. Qed.
Example t6 : convert_balance_pretty 0 24 "X" = Some (Currency "0.000000" "aX"). Proof. vm_compute. reflexivity. Qed.
Example t7 : convert_balance_pretty 0xffffffffffffffffffffffffffffffff 0 "X" = Some (Currency "340282366920938463463374607.431768211455" "TX"). Proof. vm_compute. reflexivity. Qed.
Example t8 : convert_balance_pretty 1 0 "X" = Some (Currency "1" "X"). Proof. vm_compute. reflexivity. Qed.
Example t9 : convert_balance_pretty 1 1 "X" = Some (Currency "100" "mX"). Proof. vm_compute. reflexivity. Qed.
Example t10 : convert_balance_pretty 1 2 "X" = Some (Currency "10" "mX"). Proof. vm_compute. reflexivity. Qed.
Example t11 : convert_balance_pretty 1 3 "X" = Some (Currency "1" "mX"). Proof. vm_compute. reflexivity. Qed.
Example t12 : convert_balance_pretty 1 4 "X" = Some (Currency "100" "uX"). Proof. vm_compute. reflexivity. Qed.
Example t13 : convert_balance_pretty 12 0 "X" = Some (Currency "12" "X"). Proof. vm_compute. reflexivity. Qed.
Example t14 : convert_balance_pretty 12 1 "X" = Some (Currency "1.2" "X"). Proof. vm_compute. reflexivity. Qed.
Example t15 : convert_balance_pretty 12 2 "X" = Some (Currency "120" "mX"). Proof. vm_compute. reflexivity. Qed.
Example t16 : convert_balance_pretty 12 3 "X" = Some (Currency "12" "mX"). Proof. vm_compute. reflexivity. Qed.
Example t17 : convert_balance_pretty 12 4 "X" = Some (Currency "1.2" "mX"). Proof. vm_compute. reflexivity. Qed.
Example t18 : convert_balance_pretty 123 0 "X" = Some (Currency "123" "X"). Proof. vm_compute. reflexivity. Qed.
Example t19 : convert_balance_pretty 123 1 "X" = Some (Currency "12.3" "X"). Proof. vm_compute. reflexivity. Qed.
Example t20 : convert_balance_pretty 123 2 "X" = Some (Currency "1.23" "X"). Proof. vm_compute. reflexivity. Qed.
Example t21 : convert_balance_pretty 123 3 "X" = Some (Currency "123" "mX"). Proof. vm_compute. reflexivity. Qed.
Example t22 : convert_balance_pretty 123 4 "X" = Some (Currency "12.3" "mX"). Proof. vm_compute. reflexivity. Qed.
Example t23 : convert_balance_pretty 1 40 "X" = Some (Currency "0.0000000000000000000001" "aX"). Proof. vm_compute. reflexivity. Qed.
Example t24 : convert_balance_pretty 12345 21 "X" = Some (Currency "12.345" "aX"). Proof. vm_compute. reflexivity. Qed.
Example t25 : convert_balance_pretty 12345 18 "X" = Some (Currency "12.345" "fX"). Proof. vm_compute. reflexivity. Qed.
Example t26 : convert_balance_pretty 12345 15 "X" = Some (Currency "12.345" "pX"). Proof. vm_compute. reflexivity. Qed.
Example t27 : convert_balance_pretty 12345 12 "X" = Some (Currency "12.345" "nX"). Proof. vm_compute. reflexivity. Qed.
Example t28 : convert_balance_pretty 12345 10 "X" = Some (Currency "1.2345" "uX"). Proof. vm_compute. reflexivity. Qed.
Example t29 : convert_balance_pretty 12345 9 "X" = Some (Currency "12.345" "uX"). Proof. vm_compute. reflexivity. Qed.
Example t30 : convert_balance_pretty 12345 6 "X" = Some (Currency "12.345" "mX"). Proof. vm_compute. reflexivity. Qed.
Example t31 : convert_balance_pretty 12345 3 "X" = Some (Currency "12.345" "X"). Proof. vm_compute. reflexivity. Qed.
Example t32 : convert_balance_pretty 12345 0 "X" = Some (Currency "12.345" "kX"). Proof. vm_compute. reflexivity. Qed.
Example t33 : convert_balance_pretty 123450000 0 "X" = Some (Currency "123.450000" "MX"). Proof. vm_compute. reflexivity. Qed.
Example t34 : convert_balance_pretty 1234500000 0 "X" = Some (Currency "1.234500000" "GX"). Proof. vm_compute. reflexivity. Qed.
Example t35 : convert_balance_pretty 1234500000000 0 "X" = Some (Currency "1.234500000000" "TX"). Proof. vm_compute. reflexivity. Qed.
Example t36 : convert_balance_pretty 10000000000000001 0 "X" = Some (Currency "10000.000000000001" "TX"). Proof. vm_compute. reflexivity. Qed.
Example t37 : convert_balance_pretty 1234 24 "X" = Some (Currency "0.001234" "aX"). Proof. vm_compute. reflexivity. Qed.
Example t38 : convert_balance_pretty 0xffffffffffffffffffffffffffffffff 15 "X" = Some (Currency "340282366920.938463463374607431768211455" "TX"). Proof. vm_compute. reflexivity. Qed.
Example t39 : convert_balance_pretty 0xffffffffffffffffffffffffffffffff 18 "X" = Some (Currency "340282366.920938463463374607431768211455" "TX"). Proof. vm_compute. reflexivity. Qed.
Example t40 : convert_balance_pretty 0xffffffffffffffffffffffffffffffff 9 "X" = Some (Currency "340282366920938463.463374607431768211455" "TX"). Proof. vm_compute. reflexivity. Qed.
Example t41 : convert_balance_pretty 0xffffffffffffffffffffffffffffffff 27 "X" = Some (Currency "340.282366920938463463374607431768211455" "GX"). Proof. vm_compute. reflexivity. Qed.
