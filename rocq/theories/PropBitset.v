(* C32: the bit sets of run-time size behave like lists of bits.
   DRAMPower's library code does not use them, its tests do. *)
From Coq Require Import NArith List Bool Lia.
From Verif Require Import Base Bits BitsetModel BitsetSpec BitsetProofs.
Import ListNotations.
Local Open Scope N_scope.

(* Whatever constructors and mutators were called, size, count and [] show what
   the same history on a list of bits gives. *)
Theorem C32_dynamic_observed : forall bs tidy d l, (0 < bs)%nat -> made bs tidy d l ->
  dyn_size d = length l /\ dyn_count bs d = trues l /\ forall i, (i < length l)%nat -> dyn_get bs d i = Value (nth i l false).
Proof. exact made_observed. Qed.
Print Assumptions C32_dynamic_observed.

(* A history: 01101 pushed in blocks of four bits, everything flipped, one bit
   pushed, bit 0 flipped. *)
Definition pushes (bs : nat) (l : list bool) : result dynset := loop (fun b d => dyn_push bs d b) l dyn_empty.
Lemma pushes_made bs l d : pushes bs l = Value d -> made bs true d l.
Proof.
  revert d. unfold pushes. induction l as [|x l IH] using rev_ind; intros d E; [injection E as <-; constructor|].
  assert (forall (l : list bool) a, loop (fun b d => dyn_push bs d b) (l ++ [x]) a =
            (y <- loop (fun b d => dyn_push bs d b) l a ;; dyn_push bs y x)) as Happ.
  { clear. induction l as [|z l IH]; intros a; cbn [app loop bind]; [destruct (dyn_push bs a x); reflexivity|]. destruct (dyn_push bs a z); [apply IH|reflexivity]. }
  rewrite Happ in E. destruct (loop _ l dyn_empty) as [y|] eqn:Ey; [|discriminate]. cbn [bind] in E. eapply made_push; [apply IH; reflexivity|exact E].
Qed.
Example C32_dynamic_case : exists d, made 4 false d [false; false; false; true; false; true] /\ dyn_count 4 d = 2.
Proof.
  assert (exists d0, pushes 4 [false; true; true; false; true] = Value d0) as [d0 E0] by (eexists; vm_compute; reflexivity).
  pose proof (made_not 4 _ _ _ (pushes_made _ _ _ E0)) as M1. cbn [map negb] in M1. vm_compute in E0. injection E0 as <-.
  eexists. split.
  - change [false; false; false; true; false; true] with (list_set ([true; false; false; true; false] ++ [true]) 0 (negb true)).
    eapply made_flip; [eapply made_push; [exact M1|vm_compute; reflexivity]|cbn; lia|vm_compute; reflexivity].
  - vm_compute. reflexivity.
Qed.

(* No mutator fails within the size; the compound assignments fail exactly when
   the sizes differ. *)
Theorem C32_dynamic_accepts : forall bs tidy d l, (0 < bs)%nat -> made bs tidy d l ->
  (forall v, exists d', dyn_push bs d v = Value d') /\
  (forall n, (n < length l)%nat -> (forall v, exists d', dyn_set bs d n v = Value d') /\ (exists d', dyn_flip bs d n = Value d')) /\
  (forall g tidy' e l', made bs tidy' e l' -> if Nat.eqb (length l) (length l') then exists d', dyn_zip (word_gate g) d e = Value d'
                                             else dyn_zip (word_gate g) d e = Fails Assertion).
Proof. exact made_goes_on. Qed.
Print Assumptions C32_dynamic_accepts.
Example C32_dynamic_accepts_case : made 4 true (dyn_new 4 6) (repeat false 6).
Proof. constructor. Qed.

(* One block beyond the size every access throws. *)
Theorem C32_dynamic_out_of_range : forall bs tidy d l n v, (0 < bs)%nat -> made bs tidy d l -> (length l + bs <= n)%nat ->
  dyn_set bs d n v = Fails Exception /\ dyn_flip bs d n = Fails Exception /\ dyn_get bs d n = Fails Exception.
Proof. exact made_far. Qed.
Print Assumptions C32_dynamic_out_of_range.
Example C32_dynamic_out_of_range_case : made 4 true (dyn_new 4 6) (repeat false 6) /\ (length (repeat false 6) + 4 <= 10)%nat.
Proof. split; [constructor|cbn; lia]. Qed.

(* Nearer to the size the accesses succeed: a set of six bits has a bit number 7. *)
Theorem C32_dynamic_range_refuted : exists bs d l n, (0 < bs)%nat /\ made bs true d l /\ (length l <= n)%nat /\
  dyn_get bs d n = Value false /\ exists d', dyn_set bs d n true = Value d' /\ dyn_get bs d' n = Value true.
Proof.
  exists 4%nat, (dyn_new 4 6), (repeat false 6), 7%nat. split; [lia|]. split; [constructor|]. split; [cbn; lia|]. split; [vm_compute; reflexivity|].
  eexists. split; [vm_compute; reflexivity|]. vm_compute. reflexivity.
Qed.
Print Assumptions C32_dynamic_range_refuted.

(* ==: sound always; complete as long as set(), flip() and ~ were not used.
   Between different block sizes it is exact. *)
Theorem C32_dynamic_equality : forall bs bs' tidy tidy' d e l l', (0 < bs)%nat -> (0 < bs')%nat -> made bs tidy d l ->
  (made bs tidy' e l' -> exists r, dyn_eq d e = Value r /\ (r = true -> l = l') /\ (tidy = true -> tidy' = true -> l = l' -> r = true)) /\
  (made bs' tidy' e l' -> exists r, dyn_eq_other bs bs' d e = Value r /\ (r = true <-> l = l')) /\
  (forall v, exists r, dyn_eq_value bs d v = Value r /\ (r = true -> l = value_bits (length l) v) /\
                       (tidy = true -> l = value_bits (length l) v -> r = true)).
Proof. exact made_equal. Qed.
Print Assumptions C32_dynamic_equality.
Example C32_dynamic_equality_case : exists d e d', pushes 4 [true; false; true] = Value d /\ dyn_of_value 4 3 5 = Value e /\ pushes 2 [true; false; true] = Value d' /\
  made 4 true d [true; false; true] /\ made 4 true e (value_bits 3 5) /\ dyn_eq d e = Value true /\ dyn_eq_other 4 2 e d' = Value true.
Proof.
  eexists _, _, _. split; [vm_compute; reflexivity|]. split; [vm_compute; reflexivity|]. split; [vm_compute; reflexivity|].
  split; [apply pushes_made; vm_compute; reflexivity|]. split; [constructor; vm_compute; reflexivity|]. split; vm_compute; reflexivity.
Qed.

(* With ~ completeness fails: ~000 and 111 hold the same bits and are not ==. *)
Theorem C32_dynamic_equality_refuted : exists bs d e l, (0 < bs)%nat /\ made bs false d l /\ made bs true e l /\ dyn_eq d e = Value false.
Proof.
  exists 4%nat, (dyn_not 4 (dyn_new 4 3)). eexists _, [true; true; true]. split; [lia|].
  split; [change [true; true; true] with (map negb (repeat false 3)); eapply made_not; constructor|].
  split; [apply pushes_made; vm_compute; reflexivity|]. vm_compute. reflexivity.
Qed.
Print Assumptions C32_dynamic_equality_refuted.

(* sub_bitset: exact, with an assertion beyond the width. *)
Theorem C32_sub_observed : forall max s l, sub_made max s l ->
  sb_width s = length l /\ sub_count s = trues l /\
  forall i, sub_get s i = if Nat.ltb i (length l) then Value (nth i l false) else Fails Assertion.
Proof. exact sub_made_observed. Qed.
Print Assumptions C32_sub_observed.
Example C32_sub_case : exists s, sub_made 8 s [false; true; false; true; true] /\ sub_count s = 3.
Proof.
  assert (exists t, sub_of_value 8 5 5 = Value t) as [t E] by (eexists; vm_compute; reflexivity).
  exists (sub_not 8 t). split; [change [false; true; false; true; true] with (map negb (value_bits 5 5)); constructor; now constructor|].
  vm_compute in E. injection E as <-. vm_compute. reflexivity.
Qed.
Theorem C32_sub_accepts : forall max s l, sub_made max s l ->
  (forall n, if Nat.ltb n (length l) then (forall v, exists s', sub_set max s n v = Value s') /\ (exists s', sub_flip s n = Value s')
             else (forall v, sub_set max s n v = Fails Assertion) /\ sub_flip s n = Fails Assertion) /\
  (forall g t l', sub_made max t l' -> if Nat.eqb (length l) (length l') then exists s', sub_gate g s t = Value s' else sub_gate g s t = Fails Assertion).
Proof. exact sub_made_goes_on. Qed.
Print Assumptions C32_sub_accepts.
Example C32_sub_accepts_case : exists s, sub_made 8 s (repeat false 5).
Proof. eexists. eapply sm_new. vm_compute. reflexivity. Qed.
Theorem C32_sub_equality : forall max max' s t l l', sub_made max s l ->
  (sub_made max' t l' -> (sub_eq s t = true <-> l = l')) /\
  (forall v, exists r, sub_eq_value max s v = Value r /\ (r = true <-> l = value_bits (length l) v)).
Proof. exact sub_made_equal. Qed.
Print Assumptions C32_sub_equality.
Example C32_sub_equality_case : exists s t, sub_made 8 s (value_bits 5 5) /\ sub_made 16 t (value_bits 5 5) /\ sub_eq s t = true.
Proof.
  eexists _, _. split; [constructor; vm_compute; reflexivity|]. split; [constructor; vm_compute; reflexivity|]. vm_compute. reflexivity.
Qed.
