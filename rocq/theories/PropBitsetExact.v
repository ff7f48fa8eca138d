(* Bit sets of run-time size, exactly: C32. *)
From Coq Require Import NArith List Bool Lia Arith.
From Verif Require Import Base Bits BitsetModel BitsetSpec BitsetProofs BitsetExactSpec BitsetExact.
Import ListNotations.
Local Open Scope N_scope.

(* Whatever has been done, in or out of range: a set is a size and a list of as
   many bits as whole blocks have room for.  Accesses reach the whole list and
   throw beyond it, count looks at the first bits only, pushing never fails and
   the compound assignments fail exactly when the sizes differ. *)
Theorem C32_dynamic_exactly : forall bs d n l, (0 < bs)%nat -> kept bs d n l ->
  length l = room bs n /\ (n <= room bs n < n + bs)%nat /\
  dyn_size d = n /\ dyn_count bs d = trues (firstn n l) /\
  (forall i, dyn_get bs d i = if Nat.ltb i (room bs n) then Value (nth i l false) else Fails Exception) /\
  (forall v, exists d', dyn_push bs d v = Value d') /\
  (forall i v, if Nat.ltb i (room bs n) then exists d', dyn_set bs d i v = Value d' else dyn_set bs d i v = Fails Exception) /\
  (forall i, if Nat.ltb i (room bs n) then exists d', dyn_flip bs d i = Value d' else dyn_flip bs d i = Fails Exception) /\
  (forall g e n' l', kept bs e n' l' -> if Nat.eqb n n' then exists d', dyn_zip (word_gate g) d e = Value d'
                                        else dyn_zip (word_gate g) d e = Fails Assertion).
Proof. exact kept_exactly. Qed.
Print Assumptions C32_dynamic_exactly.

(* Three bits in a block of four, complemented, then one pushed: the spare bit
   is overwritten, and the set equals 1111 again. *)
Example C32_dynamic_exactly_case : exists d e,
  dyn_push 4 (dyn_not 4 (dyn_new 4 3)) true = Value d /\ dyn_of_value 4 4 15 = Value e /\
  kept 4 (dyn_not 4 (dyn_new 4 3)) 3 [true; true; true; true] /\
  kept 4 d 4 [true; true; true; true] /\ kept 4 e 4 [true; true; true; true] /\ dyn_eq d e = Value true /\
  dyn_eq_value 4 (dyn_not 4 (dyn_new 4 3)) 7 = Value false.
Proof.
  do 2 eexists. split; [vm_compute; reflexivity|]. split; [vm_compute; reflexivity|].
  assert (kept 4 (dyn_not 4 (dyn_new 4 3)) 3 [true; true; true; true]) as K.
  { change [true; true; true; true] with (map negb (repeat false (room 4 3))). apply kept_not, kept_new. }
  split; [exact K|].
  split; [change [true; true; true; true] with (list_set (filled (room 4 4) [true; true; true; true]) 3 true); eapply kept_push; [exact K|vm_compute; reflexivity]|].
  split; [change [true; true; true; true] with (filled (room 4 4) (value_bits 4 15)); apply kept_value; vm_compute; reflexivity|].
  split; vm_compute; reflexivity.
Qed.

(* == compares the spare bits too, between equal block sizes and with a number;
   between different block sizes it does not. *)
Theorem C32_dynamic_equality_exactly : forall bs d n l, (0 < bs)%nat -> kept bs d n l ->
  (forall e n' l', kept bs e n' l' -> exists r, dyn_eq d e = Value r /\ (r = true <-> n = n' /\ l = l')) /\
  (forall bs' e n' l', (0 < bs')%nat -> kept bs' e n' l' ->
     exists r, dyn_eq_other bs bs' d e = Value r /\ (r = true <-> firstn n l = firstn n' l')) /\
  (forall v, exists r, dyn_eq_value bs d v = Value r /\ (r = true <-> l = filled (room bs n) (value_bits n v))).
Proof. exact kept_equal. Qed.
Print Assumptions C32_dynamic_equality_exactly.
(* A bit written beyond the size is seen by == and not by count. *)
Example C32_dynamic_equality_exactly_case : exists d, dyn_set 4 (dyn_new 4 3) 3 true = Value d /\
  kept 4 d 3 [false; false; false; true] /\ kept 4 (dyn_new 4 3) 3 (repeat false 4) /\
  dyn_eq d (dyn_new 4 3) = Value false /\ dyn_count 4 d = 0.
Proof.
  eexists. split; [vm_compute; reflexivity|].
  split; [change [false; false; false; true] with (list_set (repeat false (room 4 3)) 3 true); eapply kept_set; [apply kept_new|vm_compute; reflexivity]|].
  split; [change (repeat false 4) with (repeat false (room 4 3)); apply kept_new|]. split; vm_compute; reflexivity.
Qed.
