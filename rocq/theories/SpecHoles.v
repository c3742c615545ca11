(** External memory with unreadable addresses (C53). *)
From Verif Require Import Base Compact Types Indicators Decode.
Local Open Scope list_scope.

(** [b] holds [data] in external memory, some addresses of which are [dead]: a request that
    stays within the data and touches a dead address always fails; every other request is
    answered as it is in memory. *)
Definition holes {E} (b : buffer E) (data : bytes) (dead : nat -> bool) : Prop :=
  total_len b = List.length data /\
  forall p n e,
    (forall a, (p <= a < p + N.to_nat n)%nat -> (p + N.to_nat n <= List.length data)%nat -> dead a = true ->
       exists c, fst (rd b p n e) = inr (BExternal c)) /\
    ((forall a, (p <= a < p + N.to_nat n)%nat -> dead a = false) \/ (List.length data < p + N.to_nat n)%nat ->
       fst (rd b p n e) = fst (rd (slice_buffer data) p n tt)).
