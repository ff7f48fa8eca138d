(* The parity bit of an LPDDR6 pattern that has it in the third place. *)
From Coq Require Import NArith List Bool Lia.
From Verif Require Import Base Bits BitFacts PatternModel PatternSpec PatternProofs.
Import ListNotations.
Local Open Scope N_scope.

Lemma popcount_set : forall n w, N.testbit w (N.of_nat n) = false -> popcount (N.setbit w (N.of_nat n)) = popcount w + 1.
Proof.
  induction n as [|n IH]; intros w H.
  - assert (N.odd w = false) as O by (rewrite <- N.bit0_odd; exact H).
    replace (N.setbit w (N.of_nat 0)) with (2 * N.div2 w + 1).
    + rewrite (popcount_double_plus (N.div2 w) true). rewrite (N.div2_odd w) at 2. rewrite O. cbn [N.b2n]. rewrite (popcount_double_plus (N.div2 w) false). lia.
    + apply N.bits_inj. intros i. destruct (N.zero_or_succ i) as [->|[j ->]].
      * rewrite N.testbit_odd_0. symmetry. apply N.setbit_eq.
      * rewrite N.testbit_odd_succ by apply N.le_0_l. rewrite N.setbit_neq by (cbn; lia). rewrite N.div2_spec, N.shiftr_spec'. f_equal. lia.
  - assert (N.testbit (N.div2 w) (N.of_nat n) = false) as H2.
    { rewrite N.div2_spec, N.shiftr_spec'. rewrite <- H. f_equal. lia. }
    replace (N.setbit w (N.of_nat (S n))) with (2 * N.setbit (N.div2 w) (N.of_nat n) + (if N.odd w then 1 else 0)).
    + rewrite popcount_double_plus, (IH _ H2). rewrite (N.div2_odd w) at 3. unfold N.b2n. rewrite (popcount_double_plus (N.div2 w) (N.odd w)). lia.
    + apply N.bits_inj. intros i. destruct (N.zero_or_succ i) as [->|[j ->]].
      * rewrite N.setbit_neq by lia. rewrite (N.bit0_odd w). destruct (N.odd w) eqn:O; [apply N.testbit_odd_0|rewrite N.add_0_r; rewrite N.testbit_even_0; congruence].
      * assert (N.testbit (2 * N.setbit (N.div2 w) (N.of_nat n) + (if N.odd w then 1 else 0)) (N.succ j) = N.testbit (N.setbit (N.div2 w) (N.of_nat n)) j) as ->.
        { destruct (N.odd w); [apply N.testbit_odd_succ; apply N.le_0_l|rewrite N.add_0_r; apply N.testbit_even_succ; apply N.le_0_l]. }
        rewrite !N.setbit_eqb. rewrite N.div2_spec, N.shiftr_spec'. replace (j + 1) with (N.succ j) by lia. f_equal.
        destruct (N.eqb_spec (N.of_nat n) j), (N.eqb_spec (N.of_nat (S n)) (N.succ j)); try reflexivity; lia.
Qed.
Lemma mod2_odd n : (n mod 2 =? 1) = N.odd n.
Proof. rewrite <- N.bit0_mod, N.bit0_odd. now destruct (N.odd n). Qed.

Theorem parity_even e c p w : ex_groups e = 4 -> encode6 e c p = Value w -> ex_parity e = true -> nth_error p 2 = Some EPAR ->
  N.odd (popcount w) = false /\ forall i d, i <> 2%nat -> nth_error p i = Some d -> N.testbit w (N.of_nat (length p - 1 - i)) = demanded6 e c d.
Proof.
  intros Hg E Hp H2. unfold encode6 in E. rewrite Hg in E. cbn [N.eqb] in E.
  destruct (co_dbank c mod 4 =? 0); [|discriminate]. cbn [check] in E. destruct (Nat.ltb 0 (length p) && Nat.leb (length p) 64); [|discriminate]. cbn [check] in E.
  destruct (encode6_loop e c p 0) as [r|] eqn:El; [|discriminate]. cbn [bind] in E. rewrite Hp, H2 in E. cbn [is_par] in E.
  assert (forall j, N.testbit r (N.of_nat j) = match bit_at p j with Some d => demanded6 e c d | None => false end) as H.
  { intros j. rewrite (encode6_loop_spec e c Hg p 0 r El) by (intros; apply N.bits_0). destruct (bit_at p j); [reflexivity|apply N.bits_0]. }
  assert (2 < length p)%nat as L by (apply nth_error_Some; congruence).
  assert (forall i d, nth_error p i = Some d -> N.testbit r (N.of_nat (length p - 1 - i)) = demanded6 e c d) as Hi.
  { intros i d Hi. assert (i < length p)%nat as Hl by (apply nth_error_Some; congruence). rewrite H, bit_at_index, Hi by assumption. reflexivity. }
  pose proof (Hi 2%nat EPAR H2) as Hz. replace (length p - 1 - 2)%nat with (length p - 3)%nat in Hz by lia. cbn [demanded6] in Hz.
  injection E as <-. rewrite mod2_odd. split.
  - unfold put_bit. destruct (N.odd (popcount r)) eqn:O.
    + rewrite (popcount_set _ _ Hz), N.add_1_r, N.odd_succ, <- N.negb_odd, O. reflexivity.
    + assert (N.clearbit r (N.of_nat (length p - 3)) = r) as ->; [|exact O]. apply N.bits_inj. intros i. rewrite N.clearbit_eqb. destruct (N.eqb_spec (N.of_nat (length p - 3)) i) as [<-|_]; [now rewrite Hz|apply andb_true_r].
  - intros i d Ni Ei. assert (i < length p)%nat as Hl by (apply nth_error_Some; congruence). rewrite put_bit_spec. replace (Nat.eqb (length p - 3) (length p - 1 - i)) with false; [now apply Hi|]. symmetry. apply PeanoNat.Nat.eqb_neq. lia.
Qed.
