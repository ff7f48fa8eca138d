(* Facts on bit sets, popcount and statistics. *)
From Coq Require Import ZArith NArith List Bool Lia ZifyBool ZifyNat ZifyN.
From Verif Require Import Base Bits WaveSpec.
Import ListNotations.
Local Open Scope N_scope.

Definition bounded (k : nat) (n : N) : Prop := forall i, (k <= i)%nat -> level n i = false.

Lemma lines_0 f : lines 0 f = 0.
Proof. reflexivity. Qed.

Lemma lines_S k f : lines (S k) f = (if f 0%nat then 1 else 0) + lines k (fun j => f (S j)).
Proof.
  unfold lines. cbn [seq filter]. rewrite <- seq_shift.
  assert (forall l, length (filter f (map S l)) = length (filter (fun j => f (S j)) l)) as H.
  { induction l as [|x l IH]; cbn; auto. destruct (f (S x)); cbn; rewrite IH; auto. }
  destruct (f 0%nat); cbn [length]; rewrite H; lia.
Qed.

Lemma lines_snoc k f : lines (S k) f = lines k f + (if f k then 1 else 0).
Proof.
  unfold lines. rewrite seq_S, filter_app, app_length. cbn [plus filter].
  destruct (f k); cbn [length]; lia.
Qed.

Lemma lines_ext k f g : (forall j, (j < k)%nat -> f j = g j) -> lines k f = lines k g.
Proof.
  intros H. unfold lines. f_equal. f_equal. apply filter_ext_in. intros j Hj. apply in_seq in Hj. apply H. lia.
Qed.

Lemma lines_le k f : lines k f <= N.of_nat k.
Proof. induction k; [cbn; lia|]. rewrite lines_snoc. destruct (f k); lia. Qed.

Lemma lines_negb k f : lines k f + lines k (fun j => negb (f j)) = N.of_nat k.
Proof.
  induction k; [reflexivity|]. rewrite !lines_snoc. destruct (f k); cbn [negb]; lia.
Qed.

Lemma popcount_double_plus n (b : bool) : popcount (2 * n + (if b then 1 else 0)) = popcount n + (if b then 1 else 0).
Proof.
  destruct n as [|p], b; cbn -[N.add]; try reflexivity; try lia.
  - change (popcount_pos (xI p) = popcount_pos p + 1). cbn [popcount_pos]. lia.
  - change (popcount_pos (xO p) = popcount_pos p + 0). cbn [popcount_pos]. lia.
Qed.

Lemma level_half n j : level (N.div2 n) j = level n (S j).
Proof. unfold level. rewrite N.div2_spec, N.shiftr_spec'. f_equal. lia. Qed.

Lemma popcount_lines k : forall n, bounded k n -> popcount n = lines k (level n).
Proof.
  induction k; intros n H.
  - assert (n = 0) as ->; [|reflexivity].
    apply N.bits_inj_0. intros i. specialize (H (N.to_nat i)). unfold level in H. rewrite N2Nat.id in H. apply H. lia.
  - rewrite lines_S, (lines_ext k _ (level (N.div2 n))) by (intros; symmetry; apply level_half).
    rewrite <- IHk.
    + rewrite (N.div2_odd n) at 1. unfold level. rewrite N.bit0_odd.
      pose proof (popcount_double_plus (N.div2 n) (N.odd n)) as P. unfold N.b2n.
      destruct (N.odd n); rewrite P; lia.
    + intros i Hi. rewrite level_half. apply H. lia.
Qed.

Lemma popcount_le k n : bounded k n -> popcount n <= N.of_nat k.
Proof. intros H. rewrite (popcount_lines k n H). apply lines_le. Qed.

Lemma level_ldiff p q j : level (N.ldiff p q) j = level p j && negb (level q j).
Proof. unfold level. apply N.ldiff_spec. Qed.
Lemma level_lxor p q j : level (N.lxor p q) j = xorb (level p j) (level q j).
Proof. unfold level. apply N.lxor_spec. Qed.
Lemma level_land p q j : level (N.land p q) j = level p j && level q j.
Proof. unfold level. apply N.land_spec. Qed.
Lemma level_lor p q j : level (N.lor p q) j = level p j || level q j.
Proof. unfold level. apply N.lor_spec. Qed.

Lemma bounded_ldiff k p q : bounded k p -> bounded k (N.ldiff p q).
Proof. intros H i Hi. rewrite level_ldiff, H; auto. Qed.
Lemma bounded_lxor k p q : bounded k p -> bounded k q -> bounded k (N.lxor p q).
Proof. intros H H' i Hi. rewrite level_lxor, H, H'; auto. Qed.
Lemma bounded_0 k : bounded k 0.
Proof. intros i _. apply N.bits_0. Qed.
Lemma bounded_weaken j k n : (j <= k)%nat -> bounded j n -> bounded k n.
Proof. intros L H i Hi. apply H. lia. Qed.

Lemma bounded_lt k n : bounded k n -> n < 2 ^ N.of_nat k.
Proof.
  intros H. destruct (N.lt_ge_cases n (2 ^ N.of_nat k)) as [|G]; auto.
  exfalso. assert (n <> 0) as N0 by (intros ->; apply N.le_0_r in G; revert G; apply N.pow_nonzero; lia).
  assert (N.of_nat k <= N.log2 n) as L by (rewrite <- (N.log2_pow2 (N.of_nat k)) by lia; apply N.log2_le_mono; auto).
  pose proof (N.bit_log2 n N0) as B. specialize (H (N.to_nat (N.log2 n))). unfold level in H.
  rewrite N2Nat.id, B in H. discriminate H. lia.
Qed.
Lemma lt_bounded k n : n < 2 ^ N.of_nat k -> bounded k n.
Proof.
  intros H i Hi. unfold level. destruct (N.eq_dec n 0) as [->|N0]; [apply N.bits_0|].
  apply N.bits_above_log2. apply N.log2_lt_pow2 in H; lia.
Qed.

Lemma bounded_eq k p q : bounded k p -> bounded k q -> (forall j, (j < k)%nat -> level p j = level q j) -> p = q.
Proof.
  intros Hp Hq H. apply N.bits_inj. intros i. unfold level in *.
  destruct (Nat.lt_ge_cases (N.to_nat i) k) as [L|L].
  - specialize (H _ L). rewrite N2Nat.id in H. exact H.
  - specialize (Hp _ L). specialize (Hq _ L). unfold level in *. rewrite N2Nat.id in *. congruence.
Qed.

Lemma level_setbit n i j : level (N.setbit n (N.of_nat i)) j = (Nat.eqb i j) || level n j.
Proof. unfold level. rewrite N.setbit_eqb. f_equal. destruct (Nat.eqb_spec i j); destruct (N.eqb_spec (N.of_nat i) (N.of_nat j)); lia. Qed.
Lemma level_clearbit n i j : level (N.clearbit n (N.of_nat i)) j = level n j && negb (Nat.eqb i j).
Proof. unfold level. rewrite N.clearbit_eqb. f_equal. f_equal. destruct (Nat.eqb_spec i j); destruct (N.eqb_spec (N.of_nat i) (N.of_nat j)); lia. Qed.

Lemma set_bit_spec max n i v n' : set_bit max n i v = Value n' ->
  (i < max)%nat /\ forall j, level n' j = if Nat.eqb i j then v else level n j.
Proof.
  unfold set_bit. destruct (Nat.ltb_spec i max); [|discriminate]. intros E. injection E as <-. split; auto.
  intros j. destruct v; [rewrite level_setbit|rewrite level_clearbit]; destruct (Nat.eqb i j), (level n j); reflexivity.
Qed.
Lemma set_bit_ok max n i v : (i < max)%nat -> exists n', set_bit max n i v = Value n'.
Proof. intros H. unfold set_bit. destruct (Nat.ltb_spec i max); [eauto|lia]. Qed.

(* ---- word_of ---- *)

Lemma word_of_bounded k f : word_of k f < 2 ^ N.of_nat k.
Proof.
  induction k; [cbn; lia|]. cbn [word_of]. replace (N.of_nat (S k)) with (N.succ (N.of_nat k)) by lia.
  rewrite N.pow_succ_r'. destruct (f k); lia.
Qed.

Lemma level_word_of k f j : level (word_of k f) j = (Nat.ltb j k) && f j.
Proof.
  revert j. induction k; intros j; [apply N.bits_0|]. cbn [word_of].
  assert (word_of k f + (if f k then 2 ^ N.of_nat k else 0) = if f k then N.setbit (word_of k f) (N.of_nat k) else word_of k f) as ->.
  { destruct (f k); [|lia]. rewrite N.setbit_spec', <- N.lxor_lor, N.add_nocarry_lxor; auto.
    all: apply N.bits_inj_0; intros i; rewrite N.land_spec, N.pow2_bits_eqb;
      destruct (N.eqb_spec (N.of_nat k) i) as [<-|]; [|apply andb_false_r];
      rewrite andb_true_r; apply (lt_bounded k (word_of k f) (word_of_bounded k f) k); lia. }
  destruct (f k) eqn:F; [rewrite level_setbit|]; rewrite IHk.
  - destruct (Nat.eqb_spec k j) as [<-|]; cbn [orb].
    + destruct (Nat.ltb_spec k (S k)); [|lia]. rewrite F. reflexivity.
    + destruct (Nat.ltb_spec j k), (Nat.ltb_spec j (S k)); try lia; reflexivity.
  - destruct (Nat.ltb_spec j k), (Nat.ltb_spec j (S k)); try lia; try reflexivity.
    assert (j = k) as -> by lia. rewrite F. reflexivity.
Qed.

Lemma word_of_bound k f : bounded k (word_of k f).
Proof. apply lt_bounded, word_of_bounded. Qed.

(* ---- statistics modulo 2^64 ---- *)

Lemma two64_pos : two64 <> 0.
Proof. discriminate. Qed.

Lemma stats_eq a b : ones a = ones b -> zeroes a = zeroes b -> changes a = changes b -> o2z a = o2z b -> z2o a = z2o b -> a = b.
Proof. destruct a, b; cbn. congruence. Qed.

Lemma stats_add_wrap a b : stats_add (wrap_stats a) (wrap_stats b) = wrap_stats (add_exact a b).
Proof.
  apply stats_eq; cbn; unfold u64_add; rewrite <- N.add_mod by exact two64_pos; reflexivity.
Qed.

Lemma stats_add_wrap_l a b : stats_add (wrap_stats a) b = wrap_stats (add_exact a b).
Proof.
  apply stats_eq; cbn; unfold u64_add; rewrite N.add_mod_idemp_l by exact two64_pos; reflexivity.
Qed.

Lemma stats_add_comm a b : stats_add a b = stats_add b a.
Proof. apply stats_eq; cbn; unfold u64_add; f_equal; lia. Qed.

Lemma stats_add_wrap_r a b : stats_add a (wrap_stats b) = wrap_stats (add_exact a b).
Proof.
  apply stats_eq; cbn; unfold u64_add; rewrite N.add_mod_idemp_r by exact two64_pos; reflexivity.
Qed.

Lemma add_exact_assoc a b c : add_exact a (add_exact b c) = add_exact (add_exact a b) c.
Proof. apply stats_eq; cbn; lia. Qed.
Lemma add_exact_comm a b : add_exact a b = add_exact b a.
Proof. apply stats_eq; cbn; lia. Qed.
Lemma add_exact_0 a : add_exact a stats0 = a.
Proof. apply stats_eq; cbn; lia. Qed.

(* n times the same statistics. *)
Definition scale (n : N) (a : bus_stats) : bus_stats :=
  mkStats (n * ones a) (n * zeroes a) (n * changes a) (n * o2z a) (n * z2o a).

Lemma stats_mul_wrap n a : stats_mul n (wrap_stats a) = wrap_stats (scale n a).
Proof.
  apply stats_eq; cbn; unfold u64_mul; rewrite N.mul_mod_idemp_l by exact two64_pos; f_equal; lia.
Qed.

Lemma scale_succ n a : scale (n + 1) a = add_exact (scale n a) a.
Proof. apply stats_eq; cbn; lia. Qed.

Lemma sum_beats_const a n f : (forall i, i < N.of_nat n -> f i = a) -> sum_beats f n = scale (N.of_nat n) a.
Proof.
  induction n; intros H; [reflexivity|]. cbn [sum_beats]. rewrite IHn by (intros; apply H; lia).
  rewrite H by lia. replace (N.of_nat (S n)) with (N.of_nat n + 1) by lia. rewrite scale_succ. reflexivity.
Qed.

Lemma sum_beats_ext f g n : (forall i, i < N.of_nat n -> f i = g i) -> sum_beats f n = sum_beats g n.
Proof.
  induction n; intros H; [reflexivity|]. cbn [sum_beats]. rewrite IHn by (intros; apply H; lia). f_equal. apply H. lia.
Qed.

Lemma sum_beats_split f m n : sum_beats f (m + n) = add_exact (sum_beats f m) (sum_beats (fun i => f (N.of_nat m + i)) n).
Proof.
  induction n.
  - rewrite Nat.add_0_r. cbn [sum_beats]. rewrite add_exact_0. reflexivity.
  - rewrite Nat.add_succ_r. cbn [sum_beats]. rewrite IHn, add_exact_assoc. f_equal. f_equal. lia.
Qed.

(* ---- diff ---- *)

Lemma lines_wrap k f : N.of_nat k < two64 -> lines k f mod two64 = lines k f.
Proof. intros H. apply N.mod_small. pose proof (lines_le k f). lia. Qed.
