From Coq Require Import QArith NArith List Bool Arith Lia.
From Verif Require Import Base Command CoreModel Bits ListFacts StatsModel StatsSpec StatsProofs EnergyModel EnergySpec EnergyProofs IfEnergyModel IfEnergySpec IfEnergyProofs.
Import ListNotations.
Local Open Scope Q_scope.

Lemma no_wrap_range a b : no_wrap a b -> in_range a /\ in_range b.
Proof. intros H. split; intros x; specialize (H x); lia. Qed.
Lemma no_wrap_count a b x : no_wrap a b -> count_at (sim_add a b) x = (count_at a x + count_at b x)%N.
Proof. intros H. destruct (no_wrap_range a b H). rewrite add_counts by assumption. apply N.mod_small, H. Qed.

Lemma vec_total (f : cycle_stats -> N) (a b : list cycle_stats) :
  (forall i x y, nth_error a i = Some x -> nth_error b i = Some y -> f (cyc_add x y) = (f x + f y)%N) ->
  fold_right N.add 0%N (map f (vec_add a b)) = (fold_right N.add 0 (map f a) + fold_right N.add 0 (map f b))%N.
Proof.
  revert b. induction a as [|x a IH]; intros [|y b] H; cbn [vec_add map fold_right]; try lia.
  rewrite IH by (intros i u v; apply (H (S i))). rewrite (H 0%nat x y eq_refl eq_refl). lia.
Qed.
Lemma rank_part a b i x y q : no_wrap a b -> nth_error (ss_rank a) i = Some x -> nth_error (ss_rank b) i = Some y -> part_at (cyc_add x y) q = (part_at x q + part_at y q)%N.
Proof.
  intros W A B. rewrite part_add. unfold u64_add. apply N.mod_small. specialize (W (OfRank i q)). cbn [count_at] in W. now rewrite A, B in W.
Qed.
Lemma bursts_add a b s : no_wrap a b -> total_over_ranks (bursts s) (sim_add a b) = (total_over_ranks (bursts s) a + total_over_ranks (bursts s) b)%N.
Proof. intros W. apply vec_total. intros i x y A B. destruct s; cbn [bursts]; rewrite !(rank_part a b i x y) by assumption; lia. Qed.
Lemma seamless_add a b s : no_wrap a b -> total_over_ranks (seamless s) (sim_add a b) = (total_over_ranks (seamless s) a + total_over_ranks (seamless s) b)%N.
Proof. intros W. apply vec_total. intros i x y A B. unfold seamless. now rewrite !(rank_part a b i x y) by assumption. Qed.
Lemma static_add p a b g : no_wrap a b -> static_of p (sim_add a b) g == static_of p a g + static_of p b g.
Proof.
  intros W. unfold static_of. destruct (ln_term _); [|ring]. rewrite <- qsum_plus. apply qsum_ext. intros x _. rewrite no_wrap_count by exact W. rewrite qn_add. ring.
Qed.
Lemma dynamic_add p a b g : no_wrap a b -> dynamic_of p (sim_add a b) g == dynamic_of p a g + dynamic_of p b g.
Proof. intros W. unfold dynamic_of. rewrite <- qsum_plus. apply qsum_ext. intros x _. rewrite no_wrap_count by exact W. rewrite qn_add. ring. Qed.
Lemma with_ambles_add p a b s : is_std p = DDR4 -> no_wrap a b -> amble_ok p a -> amble_ok p b -> with_ambles s (sim_add a b) = (with_ambles s a + with_ambles s b)%N.
Proof.
  intros S W A B. destruct (A S s) as (_ & A2 & _). destruct (B S s) as (_ & B2 & _). unfold with_ambles. rewrite bursts_add, seamless_add by exact W. lia.
Qed.

Theorem interface_additive p a b : usable p -> no_wrap a b -> amble_ok p a -> amble_ok p b -> amble_ok p (sim_add a b) -> toggling_ok p a -> toggling_ok p b ->
  exists ea eb e, calculateEnergy p a = Exactly ea /\ calculateEnergy p b = Exactly eb /\ calculateEnergy p (sim_add a b) = Exactly e /\
    forall s, statics e s == statics ea s + statics eb s /\ dynamics e s == dynamics ea s + dynamics eb s.
Proof.
  intros U W A B C Ta Tb.
  assert (T : toggling_ok p (sim_add a b)).
  { intros S. destruct (Ta S) as (R1 & W1). destruct (Tb S) as (R2 & W2).
    split; [destruct R1 as [|[|R1]], R2 as [|[|R2]]|destruct W1 as [|[|W1]], W2 as [|[|W2]]]; auto; right; right; rewrite no_wrap_count by exact W; lia. }
  destruct (energy_closed p a U A Ta) as (ea & Ea & Ha). destruct (energy_closed p b U B Tb) as (eb & Eb & Hb). destruct (energy_closed p _ U C T) as (e & E & H).
  exists ea, eb, e. split; [exact Ea|]. split; [exact Eb|]. split; [exact E|]. intros s.
  destruct (Ha s) as (-> & ->). destruct (Hb s) as (-> & ->). destruct (H s) as (-> & ->). split.
  - unfold static_energy.
    assert (X : qsum (static_of p (sim_add a b)) (filter (driven_by s) (groups (is_std p))) == qsum (static_of p a) (filter (driven_by s) (groups (is_std p))) + qsum (static_of p b) (filter (driven_by s) (groups (is_std p))))
      by (rewrite <- qsum_plus; apply qsum_ext; intros g _; now apply static_add).
    assert (Y : amble_static p (sim_add a b) s == amble_static p a s + amble_static p b s).
    { unfold amble_static. destruct (is_std p) eqn:S; try ring. destruct (ln_term _); [|ring]. rewrite (with_ambles_add p) by assumption. rewrite qn_add. ring. }
    rewrite X, Y. ring.
  - unfold dynamic_energy.
    assert (X : qsum (dynamic_of p (sim_add a b)) (filter (driven_by s) (groups (is_std p))) == qsum (dynamic_of p a) (filter (driven_by s) (groups (is_std p))) + qsum (dynamic_of p b) (filter (driven_by s) (groups (is_std p))))
      by (rewrite <- qsum_plus; apply qsum_ext; intros g _; now apply dynamic_add).
    assert (Y : amble_dynamic p (sim_add a b) s == amble_dynamic p a s + amble_dynamic p b s).
    { unfold amble_dynamic. destruct (is_std p) eqn:S; try ring. destruct (ln_term _); [|ring]. rewrite (with_ambles_add p) by assumption. rewrite N.mul_add_distr_l, qn_add. ring. }
    rewrite X, Y. ring.
Qed.

Theorem unterminated_free p st s : usable p -> amble_ok p st -> toggling_ok p st ->
  (forall g, In g (groups (is_std p)) -> driver g = s -> ln_term (impedance p g) = false) ->
  exists e, calculateEnergy p st = Exactly e /\ statics e s == 0.
Proof.
  intros U A T F. destruct (energy_closed p st U A T) as (e & E & H). exists e. split; [exact E|]. destruct (H s) as (-> & _). unfold static_energy.
  assert (G : forall g, In g (filter (driven_by s) (groups (is_std p))) -> ln_term (impedance p g) = false).
  { intros g Hg. apply filter_In in Hg. destruct Hg as (Hg & D). apply F; [exact Hg|]. destruct s, g; cbn in *; congruence. }
  assert (X : qsum (static_of p st) (filter (driven_by s) (groups (is_std p))) == 0) by (apply qsum_zero; intros g Hg; unfold static_of; now rewrite (G g Hg)).
  rewrite X. unfold amble_static. destruct (is_std p) eqn:S; try ring.
  rewrite (G (strobe s)) by (destruct s; cbn; tauto). ring.
Qed.

Lemma over_nonneg a b : 0 <= a -> 0 <= b -> 0 <= a / b.
Proof. intros A B. unfold Qdiv. apply Qmult_le_0_compat; [exact A|]. now apply Qinv_le_0_compat. Qed.
Lemma square_nonneg a : 0 <= a * a.
Proof. destruct (Qlt_le_dec a 0) as [H|H]; [|now apply Qmult_le_0_compat]. setoid_replace (a * a) with ((-a) * (-a)) by ring. apply Qmult_le_0_compat; apply Qlt_le_weak in H; apply Qopp_le_compat in H; exact H. Qed.
Lemma qn_nonneg n : 0 <= qn n. Proof. apply (qn_le 0 n). lia. Qed.
Lemma Qmult_mono c x y : 0 <= c -> x <= y -> c * x <= c * y.
Proof. intros C H. rewrite (Qmult_comm c x), (Qmult_comm c y). now apply Qmult_le_compat_r. Qed.

(* A statistics that counts nothing. *)
Theorem interface_monotone p a b : usable p -> sane_lines p -> amble_ok p a -> amble_ok p b -> toggling_ok p a -> toggling_ok p b ->
  (forall n f, (count_at a (OnBus n f) <= count_at b (OnBus n f))%N) -> (forall s, is_std p = DDR4 -> (with_ambles s a <= with_ambles s b)%N) ->
  exists ea eb, calculateEnergy p a = Exactly ea /\ calculateEnergy p b = Exactly eb /\
    forall s, 0 <= statics ea s <= statics eb s /\ 0 <= dynamics ea s <= dynamics eb s.
Proof.
  intros U (T1 & T2 & Z1 & Z2 & Hl) A B Ta Tb H Hw.
  destruct (energy_closed p a U A Ta) as (ea & Ea & Ha). destruct (energy_closed p b U B Tb) as (eb & Eb & Hb).
  exists ea, eb. split; [exact Ea|]. split; [exact Eb|]. intros s. destruct (Ha s) as (-> & ->). destruct (Hb s) as (-> & ->).
  assert (Hbeat : forall g, 0 <= beat p g) by (intros g; unfold beat; apply over_nonneg; [destruct g; assumption|apply qn_nonneg]).
  assert (Hcoef : forall g, In g (groups (is_std p)) -> 0 <= is_vddq p * is_vddq p / ln_R (impedance p g)) by (intros g Hg; apply over_nonneg; [apply square_nonneg|now apply Hl]).
  assert (In_strobe : is_std p = DDR4 -> In (strobe s) (groups (is_std p))) by (intros ->; destruct s; cbn; tauto).
  assert (Hlow : 0 <= lows p s) by (destruct s; assumption).
  assert (S0 : forall st, 0 <= static_energy p st s).
  { intros st. unfold static_energy. rewrite <- (Qplus_0_l 0). apply Qplus_le_compat.
    - apply qsum_nonneg. intros g Hg. apply filter_In in Hg. unfold static_of. destruct (ln_term _); [|apply Qle_refl]. apply qsum_nonneg. intros x _.
      apply Qmult_le_0_compat; [now apply Hcoef|]. apply Qmult_le_0_compat; [apply qn_nonneg|apply Hbeat].
    - unfold amble_static. destruct (is_std p) eqn:S; try apply Qle_refl. destruct (ln_term _); [|apply Qle_refl].
      apply Qmult_le_0_compat; [apply Hcoef; now apply In_strobe|]. repeat apply Qmult_le_0_compat; try apply qn_nonneg; assumption. }
  assert (D0 : forall st, 0 <= dynamic_energy p st s).
  { intros st. unfold dynamic_energy. rewrite <- (Qplus_0_l 0). apply Qplus_le_compat.
    - apply qsum_nonneg. intros g Hg. apply filter_In in Hg. unfold dynamic_of. apply qsum_nonneg. intros x _.
      apply Qmult_le_0_compat; [now apply Hl|apply qn_nonneg].
    - unfold amble_dynamic. destruct (is_std p) eqn:S; try apply Qle_refl. destruct (ln_term _); [|apply Qle_refl].
      apply Qmult_le_0_compat; [apply Hl; now apply In_strobe|apply qn_nonneg]. }
  split; (split; [auto|]).
  - unfold static_energy. apply Qplus_le_compat.
    + apply qsum_le. intros g Hg. apply filter_In in Hg. unfold static_of. destruct (ln_term _); [|apply Qle_refl]. apply qsum_le. intros x _.
      apply Qmult_mono; [now apply Hcoef|]. apply Qmult_le_compat_r; [apply qn_le, H|apply Hbeat].
    + unfold amble_static. destruct (is_std p) eqn:S; try apply Qle_refl. destruct (ln_term _); [|apply Qle_refl].
      apply Qmult_mono; [apply Hcoef; now apply In_strobe|]. apply Qmult_le_compat_r; [|assumption].
      apply Qmult_mono; [apply Qmult_le_0_compat; [apply qn_nonneg|assumption]|]. apply qn_le. now apply Hw.
  - unfold dynamic_energy. apply Qplus_le_compat.
    + apply qsum_le. intros g Hg. apply filter_In in Hg. unfold dynamic_of. apply qsum_le. intros x _.
      apply Qmult_mono; [now apply Hl|apply qn_le, H].
    + unfold amble_dynamic. destruct (is_std p) eqn:S; try apply Qle_refl. destruct (ln_term _); [|apply Qle_refl].
      apply Qmult_mono; [apply Hl; now apply In_strobe|]. apply qn_le. apply N.mul_le_mono_l. now apply Hw.
Qed.

(* Examples. *)
Definition ex_line (t : bool) : line := mkLine t 50 (1 # 1000).
Definition ex_imp (t : bool) : impedances :=
  mkImp (ex_line t) (ex_line t) (ex_line t) (ex_line t) (ex_line t) (ex_line t) (ex_line t) (ex_line t) (ex_line t).
Definition ex_ispec (s : standard) (t : bool) : ispec := mkIspec s (1#2) (1#4) (12#10) 2 2 16 (ex_imp t) (mkAmbles (5#2) (3#2) 2 1).
Definition ex_istats (z : N) : sim_stats :=
  mkSim (mkStats 5 9 4 2 2) (mkStats 1 2 3 1 2) (mkStats 6 7 4 2 2) (mkStats 10 10 20 10 10) (mkStats 20 20 40 20 20)
    (mkStats 1 1 1 0 1) (mkStats 2 2 2 1 1) (mkStats 3 z 2 1 1) (mkStats 4 z 2 1 1) (mkStats 8 8 16 8 8) (mkStats 8 8 16 8 8)
    [cycle_stats0] [mkCS (mkCstats 0 0 3 2 0 0 0 0 0 1 1) cy_zero (mkPrepos 0 0 0 0 2 1)].
Lemma ex_usable s t : usable (ex_ispec s t).
Proof. intros g Hg. destruct s, g; cbn in Hg; try (exfalso; intuition discriminate); (split; [discriminate|intros _ H; discriminate H]). Qed.
Lemma ex_amble s t z : amble_ok (ex_ispec s t) (ex_istats z).
Proof. intros S. destruct s; try discriminate. intros []; (split; [reflexivity|split; [discriminate|reflexivity]]). Qed.
Lemma ex_toggling s z : toggling_ok (ex_ispec s true) (ex_istats z).
Proof. intros _. split; left; reflexivity. Qed.
Lemma ex_amble2 s t z : amble_ok (ex_ispec s t) (sim_add (ex_istats z) (ex_istats z)).
Proof. intros S. destruct s; try discriminate. intros []; (split; [reflexivity|split; [discriminate|reflexivity]]). Qed.
Lemma ex_inowrap : no_wrap (ex_istats 6) (ex_istats 6).
Proof.
  intros [b f|i q|i q].
  - destruct b, f; reflexivity.
  - destruct i as [|i]; [destruct q as [[]|[]|[]]; reflexivity|]. cbn. destruct i; reflexivity.
  - destruct i as [|i]; [destruct q as [[]|[]|[]]; reflexivity|]. cbn. destruct i; reflexivity.
Qed.
Lemma ex_lines s t : sane_lines (ex_ispec s t).
Proof.
  split; [discriminate|]. split; [discriminate|]. split; [discriminate|]. split; [discriminate|].
  intros g _. destruct g; split; discriminate.
Qed.
(* DDR5 in toggling mode with every termination off. *)
Lemma ddr5_toggling : exists p st e, is_std p = DDR5 /\ usable p /\ (forall g, ln_term (impedance p g) = false) /\
  calculateEnergy p st = Exactly e /\ ~ statics e Dram == 0 /\ ~ statics e Controller == 0.
Proof.
  exists (ex_ispec DDR5 false), (ex_istats 6). eexists. split; [reflexivity|]. split; [apply ex_usable|]. split; [intros []; reflexivity|].
  split; [vm_compute; reflexivity|]. split; vm_compute; intros H; discriminate H.
Qed.
