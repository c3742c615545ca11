(** The unit tests of /repo/src/additional_types.rs (eras) and /repo/src/decoding_sci.rs (bit
    vectors) replayed on the model (tests of the fidelity of the model, not proofs of
    properties). The encodings made by `BitVec::encode` in the tests are written out: the
    compact number of bits, then the store elements in little endian. *)
From Verif Require Import Base Compact Types Indicators Decode Patch32.
Local Open Scope N_scope.

(** additional_types.rs:57-79. *)
Example era01 : era_decode_all [0] = Some Immortal.
Proof. vm_compute. reflexivity. Qed.
Example era02 : era_decode_all [181; 1] = Some (Mortal 64 27).
Proof. vm_compute. reflexivity. Qed.
Example era03 : era_decode_all [17; 17] = None.
Proof. vm_compute. reflexivity. Qed.

Definition le64 (n : N) : bytes := map (fun i => (n / 256 ^ N.of_nat i) mod 256) (seq 0 8).
Definition four : bytes := le64 128 ++ le64 1234567890123456 ++ le64 0 ++ le64 4234567890123456.

(** decoding_sci.rs:1239-1247. *)
Definition bv_a : bytes := [96; 3; 14; 15].
Example bitvec_correct_cut_1 :
  into_bitvec_decode (slice_buffer (bv_a ++ repeat 0 30)) 1 0%nat tt = (Ok bv_a, 4%nat, tt).
Proof. vm_compute. reflexivity. Qed.

(** decoding_sci.rs:1250-1258; 256 bits. *)
Definition bv_b : bytes := [1; 4] ++ four.
Example bitvec_correct_cut_2 :
  into_bitvec_decode (slice_buffer (bv_b ++ repeat 0 30)) 8 0%nat tt = (Ok bv_b, 34%nat, tt).
Proof. vm_compute. reflexivity. Qed.

(** decoding_sci.rs:1261-1306: on a 32-bit target the patch gives the bits of the vector. *)
Definition patched (o : bit_order) (l : bytes) : option (list bool) :=
  match patch_bitvec_u64 o (slice_buffer l) 0%nat tt with
  | (Ok bits, p, _) => if Nat.eqb p (List.length l) then Some bits else None
  | _ => None
  end.
Example bitvec_patch_1 : patched Lsb0 bv_b = bitvec_decode_all U64 Lsb0 bv_b.
Proof. vm_compute. reflexivity. Qed.
Example bitvec_patch_3 : patched Msb0 bv_b = bitvec_decode_all U64 Msb0 bv_b.
Proof. vm_compute. reflexivity. Qed.

(** 60 ones, then 30 zeros: 90 bits. *)
Definition bv_lsb : bytes := [105; 1] ++ le64 (2 ^ 60 - 1) ++ le64 0.
Definition bv_msb : bytes := [105; 1] ++ le64 (2 ^ 64 - 16) ++ le64 0.
Example bitvec_patch_2 : patched Lsb0 bv_lsb = Some (repeat true 60 ++ repeat false 30).
Proof. vm_compute. reflexivity. Qed.
Example bitvec_patch_4 : patched Msb0 bv_msb = Some (repeat true 60 ++ repeat false 30).
Proof. vm_compute. reflexivity. Qed.
