(* How errors accumulate through rounded operations. *)
From Coq Require Import QArith Qabs Qfield Lqa NArith List Bool Arith Lia.
From Verif Require Import Base Command CoreModel Bits StatsModel EnergyModel EnergySpec EnergyProofs RoundModel RoundSpec.
Import ListNotations.
Local Open Scope Q_scope.

Fixpoint power_of (x : Q) (n : nat) : Q := match n with O => 1 | S k => x * power_of x k end.

Lemma Qabs_le a b : - b <= a -> a <= b -> Qabs a <= b.
Proof. intros. apply Qabs_Qle_condition. split; assumption. Qed.
Lemma Qabs_bounds a b : Qabs a <= b -> - b <= a /\ a <= b.
Proof. apply Qabs_Qle_condition. Qed.
Lemma mul_mono a b c d : 0 <= a -> 0 <= c -> a <= b -> c <= d -> a * c <= b * d.
Proof. intros. apply Qmult_le_compat_nonneg; split; assumption. Qed.
Lemma mul_pos a b : 0 <= a -> 0 <= b -> 0 <= a * b.
Proof. intros. apply Qmult_le_0_compat; assumption. Qed.

Section Errors.
Variable R : arithmetic.
Variables u rho : Q.
Hypothesis SM : standard_model R u.
Hypothesis Hu : 0 <= u.
Hypothesis Hup : 1 + u <= rho.
Hypothesis Hdown : 1 <= rho * (1 - u).

Let pw (n : nat) := power_of rho n.

Lemma pw_1 n : 1 <= power_of rho n.
Proof using Hu Hup.
  induction n as [|n IH]; cbn [power_of]; [lra|].
  assert (1 * 1 <= rho * power_of rho n) by (apply mul_mono; lra). lra.
Qed.
Lemma pw_add a b : power_of rho (a + b) == power_of rho a * power_of rho b.
Proof using.
  induction a as [|a IH]; cbn [power_of Nat.add]; [ring|]. rewrite IH. ring.
Qed.
Lemma pw_mono a b : (a <= b)%nat -> power_of rho a <= power_of rho b.
Proof using Hu Hup.
  intros H. replace b with (a + (b - a))%nat by lia. rewrite pw_add.
  pose proof (pw_1 a). pose proof (pw_1 (b - a)).
  assert (power_of rho a * 1 <= power_of rho a * power_of rho (b - a)) by (apply mul_mono; lra). lra.
Qed.
Lemma pw_S a : power_of rho (a + 1) == rho * power_of rho a.
Proof using. rewrite pw_add. cbn [power_of]. ring. Qed.

(* x is a computed value of y, which is made of terms of total size m: the error
   is at most what n roundings of m make. *)
Definition near (n : nat) (m x y : Q) : Prop := Qabs (x - y) <= (power_of rho n - 1) * m /\ Qabs y <= m.
(* x is a computed value of y >= 0 with a relative error of n roundings. *)
Definition close (n : nat) (x y : Q) : Prop := 0 <= y /\ y <= x * power_of rho n /\ x <= y * power_of rho n.

Lemma near_size n m x y : near n m x y -> 0 <= m /\ Qabs x <= power_of rho n * m.
Proof using Hu Hup.
  intros [H1 H2]. pose proof (Qabs_nonneg y). split; [lra|].
  apply Qabs_bounds in H1. apply Qabs_bounds in H2. apply Qabs_le; lra.
Qed.
Lemma near_weaken n m x y n' m' y' : near n m x y -> (n <= n')%nat -> m <= m' -> y == y' -> near n' m' x y'.
Proof using Hu Hup.
  intros [H1 H2] Hn Hm E. split; [|rewrite <- E; lra].
  rewrite <- E. eapply Qle_trans; [exact H1|].
  pose proof (pw_mono n n' Hn). pose proof (pw_1 n). pose proof (Qabs_nonneg y).
  apply mul_mono; lra.
Qed.
(* one rounding of a computed value *)
Lemma near_round n m z x y : near n m z y -> Qabs (x - z) <= u * Qabs z -> near (n + 1) m x y.
Proof using Hu Hup.
  intros H Hx. pose proof (near_size _ _ _ _ H) as [Hm Hz]. destruct H as [H1 H2]. split; [|exact H2].
  rewrite pw_S. pose proof (pw_1 n).
  assert (Hr : u * Qabs z <= u * (power_of rho n * m)) by (apply mul_mono; try lra; apply Qabs_nonneg).
  assert (Hp : 0 <= power_of rho n * m) by (apply mul_pos; lra).
  assert (Hq : (1 + u) * (power_of rho n * m) <= rho * (power_of rho n * m)) by (apply mul_mono; lra).
  apply Qabs_bounds in H1. apply Qabs_bounds in Hx. apply Qabs_le; lra.
Qed.
Lemma near_plus a m x y b m' x' y' : near a m x y -> near b m' x' y' -> near (max a b) (m + m') (x + x') (y + y').
Proof using Hu Hup.
  intros H H'.
  apply (near_weaken _ _ _ _ (max a b) m y) in H; try lia; try lra.
  apply (near_weaken _ _ _ _ (max a b) m' y') in H'; try lia; try lra.
  destruct H as [H1 H2], H' as [H1' H2'].
  apply Qabs_bounds in H1. apply Qabs_bounds in H1'. apply Qabs_bounds in H2. apply Qabs_bounds in H2'.
  split; apply Qabs_le; lra.
Qed.
Lemma near_opp a m x y : near a m x y -> near a m (- x) (- y).
Proof using.
  intros [H1 H2]. apply Qabs_bounds in H1. apply Qabs_bounds in H2. split; apply Qabs_le; lra.
Qed.
Lemma near_times a m x y b m' x' y' : near a m x y -> near b m' x' y' -> near (a + b) (m * m') (x * x') (y * y').
Proof using Hu Hup.
  intros H H'. pose proof (near_size _ _ _ _ H) as [Hm _]. pose proof (near_size _ _ _ _ H') as [Hm' Hx'].
  destruct H as [H1 H2], H' as [H1' H2'].
  split.
  - setoid_replace (x * x' - y * y') with ((x - y) * x' + y * (x' - y')) by ring.
    eapply Qle_trans; [apply Qabs_triangle|]. rewrite !Qabs_Qmult, pw_add.
    assert (Qabs (x - y) * Qabs x' <= ((power_of rho a - 1) * m) * (power_of rho b * m')) by (apply mul_mono; auto using Qabs_nonneg).
    assert (Qabs y * Qabs (x' - y') <= m * ((power_of rho b - 1) * m')) by (apply mul_mono; auto using Qabs_nonneg).
    eapply Qle_trans; [apply Qplus_le_compat; eassumption|].
    apply Qle_lteq. right. ring.
  - rewrite Qabs_Qmult. apply mul_mono; auto using Qabs_nonneg.
Qed.
Lemma near_add a m x y b m' x' y' : near a m x y -> near b m' x' y' -> near (max a b + 1) (m + m') (r_add R x x') (y + y').
Proof using SM Hu Hup. intros H H'. eapply near_round; [apply near_plus; eassumption|apply (sm_add _ _ SM)]. Qed.
Lemma near_sub a m x y b m' x' y' : near a m x y -> near b m' x' y' -> near (max a b + 1) (m + m') (r_sub R x x') (y - y').
Proof using SM Hu Hup. intros H H'. eapply near_round; [apply near_plus; [|apply near_opp]; eassumption|apply (sm_sub _ _ SM)]. Qed.
Lemma near_mul a m x y b m' x' y' : near a m x y -> near b m' x' y' -> near (a + b + 1) (m * m') (r_mul R x x') (y * y').
Proof using SM Hu Hup. intros H H'. eapply near_round; [apply near_times; eassumption|apply (sm_mul _ _ SM)]. Qed.
Lemma near_const c : 0 <= c -> near 0 c c c.
Proof using. intros H. split; cbn [power_of]; [setoid_replace (c - c) with 0 by ring; cbn; lra|]. rewrite Qabs_pos; lra. Qed.
Lemma near_0 : near 0 0 0 0. Proof using. apply near_const. lra. Qed.

(* ------------------------------------------------------------------ *)
Lemma close_nonneg n x y : close n x y -> 0 <= x.
Proof using Hu Hup.
  intros (H & H1 & _). pose proof (pw_1 n).
  destruct (Qlt_le_dec x 0) as [L|L]; [|exact L].
  assert (x * power_of rho n <= x * 1).
  { setoid_replace (x * power_of rho n) with (- ((- x) * power_of rho n)) by ring.
    assert ((- x) * 1 <= (- x) * power_of rho n) by (apply mul_mono; lra). lra. }
  lra.
Qed.
Lemma close_weaken n x y n' y' : close n x y -> (n <= n')%nat -> y == y' -> close n' x y'.
Proof using Hu Hup.
  intros H Hn E. pose proof (close_nonneg _ _ _ H) as Hx. destruct H as (H & H1 & H2).
  pose proof (pw_mono n n' Hn). pose proof (pw_1 n).
  assert (x * power_of rho n <= x * power_of rho n') by (apply mul_mono; lra).
  assert (y * power_of rho n <= y * power_of rho n') by (apply mul_mono; lra).
  split; [|split]; rewrite <- ?E; lra.
Qed.
Lemma close_near n x y : close n x y -> near n y x y.
Proof using Hu Hup.
  intros H. pose proof (close_nonneg _ _ _ H) as Hx. destruct H as (H & H1 & H2).
  unfold near. pose proof (pw_1 n) as Hp. set (q := power_of rho n) in *.
  split; [|rewrite Qabs_pos; lra].
  apply Qabs_le; [|lra].
  (* y - x <= (q - 1) y, from y <= x q *)
  destruct (Qlt_le_dec y x) as [L|L]; [assert (0 <= (q - 1) * y) by (apply mul_pos; lra); lra|].
  assert (x * (q - 1) <= y * (q - 1)) by (apply mul_mono; lra). lra.
Qed.
Lemma close_round n z x y : close n z y -> Qabs (x - z) <= u * Qabs z -> close (n + 1) x y.
Proof using Hu Hup Hdown.
  intros H Hx. pose proof (close_nonneg _ _ _ H) as Hz. destruct H as (H & H1 & H2).
  rewrite (Qabs_pos z Hz) in Hx. apply Qabs_bounds in Hx. pose proof (pw_1 n) as Hp.
  unfold close. rewrite pw_S. split; [exact H|split].
  - assert (z * 1 <= z * (rho * (1 - u))) by (apply mul_mono; lra).
    assert ((z * (1 - u)) * rho <= x * rho) by (apply Qmult_le_compat_r; lra).
    assert (z * power_of rho n <= (x * rho) * power_of rho n) by (apply Qmult_le_compat_r; lra). lra.
  - assert (x <= z * rho).
    { assert (z * (1 + u) <= z * rho) by (apply mul_mono; lra). lra. }
    assert (z * rho <= (y * power_of rho n) * rho) by (apply Qmult_le_compat_r; lra). lra.
Qed.
Lemma close_plus a x y b x' y' : close a x y -> close b x' y' -> close (max a b) (x + x') (y + y').
Proof using Hu Hup.
  intros H H'.
  apply (close_weaken _ _ _ (max a b) y) in H; try lia; try lra.
  apply (close_weaken _ _ _ (max a b) y') in H'; try lia; try lra.
  destruct H as (H & H1 & H2), H' as (H' & H1' & H2'). split; [|split]; lra.
Qed.
Lemma close_times a x y b x' y' : close a x y -> close b x' y' -> close (a + b) (x * x') (y * y').
Proof using Hu Hup.
  intros H H'. pose proof (close_nonneg _ _ _ H) as Hx. pose proof (close_nonneg _ _ _ H') as Hx'.
  destruct H as (H & H1 & H2), H' as (H' & H1' & H2').
  unfold close. rewrite pw_add. split; [apply mul_pos; assumption|split].
  - setoid_replace (x * x' * (power_of rho a * power_of rho b)) with ((x * power_of rho a) * (x' * power_of rho b)) by ring. apply mul_mono; assumption.
  - setoid_replace (y * y' * (power_of rho a * power_of rho b)) with ((y * power_of rho a) * (y' * power_of rho b)) by ring. apply mul_mono; assumption.
Qed.
Lemma close_pos n x y : close n x y -> 0 < y -> 0 < x.
Proof using Hu Hup.
  intros H Hy. pose proof (close_nonneg _ _ _ H) as Hx. destruct H as (_ & H1 & _).
  destruct (Qlt_le_dec 0 x) as [L|L]; [exact L|]. assert (x == 0) as E by lra. rewrite E in H1. lra.
Qed.
Lemma close_nonzero n x y : close n x y -> ~ y == 0 -> ~ x == 0.
Proof using Hu Hup.
  intros H Hy. assert (0 < y) by (destruct H as (H & _); destruct (Qlt_le_dec 0 y); [assumption|exfalso; apply Hy; lra]).
  pose proof (close_pos _ _ _ H H0). lra.
Qed.
Lemma close_inv n x y : close n x y -> 0 < y -> close n (/ x) (/ y).
Proof using Hu Hup.
  intros H Hy. pose proof (close_pos _ _ _ H Hy) as Hx. destruct H as (_ & H1 & H2).
  pose proof (Qinv_lt_0_compat _ Hx) as Hix. pose proof (Qinv_lt_0_compat _ Hy) as Hiy. pose proof (pw_1 n) as Hp.
  split; [lra|split].
  - setoid_replace (/ y) with (x * (/ x * / y)) by (field; lra).
    setoid_replace (/ x * power_of rho n) with ((y * power_of rho n) * (/ x * / y)) by (field; lra).
    apply Qmult_le_compat_r; [exact H2|]. apply mul_pos; lra.
  - setoid_replace (/ x) with (y * (/ x * / y)) by (field; lra).
    setoid_replace (/ y * power_of rho n) with ((x * power_of rho n) * (/ x * / y)) by (field; lra).
    apply Qmult_le_compat_r; [exact H1|]. apply mul_pos; lra.
Qed.
Lemma close_add a x y b x' y' : close a x y -> close b x' y' -> close (max a b + 1) (r_add R x x') (y + y').
Proof using SM Hu Hup Hdown. intros H H'. eapply close_round; [apply close_plus; eassumption|apply (sm_add _ _ SM)]. Qed.
Lemma close_mul a x y b x' y' : close a x y -> close b x' y' -> close (a + b + 1) (r_mul R x x') (y * y').
Proof using SM Hu Hup Hdown. intros H H'. eapply close_round; [apply close_times; eassumption|apply (sm_mul _ _ SM)]. Qed.
Lemma close_div a x y b x' y' : close a x y -> close b x' y' -> 0 < y' -> close (a + b + 1) (r_div R x x') (y / y').
Proof using SM Hu Hup Hdown.
  intros H H' P. pose proof (close_pos _ _ _ H' P).
  eapply close_round; [apply close_times; [eassumption|apply close_inv; eassumption]|].
  apply (sm_div _ _ SM). lra.
Qed.
Lemma near_div a m x y b x' y' : near a m x y -> close b x' y' -> 0 < y' -> near (a + b + 1) (m / y') (r_div R x x') (y / y').
Proof using SM Hu Hup Hdown.
  intros H H' P. pose proof (close_pos _ _ _ H' P).
  eapply near_round; [apply near_times; [eassumption|apply close_near, close_inv; eassumption]|].
  apply (sm_div _ _ SM). lra.
Qed.
Lemma close_const c : 0 <= c -> close 0 c c.
Proof using. intros H. unfold close. cbn [power_of]. split; [|split]; lra. Qed.
Lemma close_of n : close 1 (r_of R n) (qn n).
Proof using SM Hu Hup Hdown.
  pose proof (qn_pos n). apply (close_round 0 (qn n)); [apply close_const; assumption|].
  rewrite (Qabs_pos (qn n)) by assumption. apply (sm_of _ _ SM).
Qed.
(* the difference of two given numbers is not magnified *)
Lemma close_diff a b : 0 <= b -> b <= a -> close 1 (r_sub R a b) (a - b).
Proof using SM Hu Hup Hdown.
  intros Hb Hab. apply (close_round 0 (a - b)); [apply close_const; lra|]. apply (sm_sub _ _ SM).
Qed.
End Errors.

(* With rho = 1 / (1 - u), n roundings make a relative error of at most 2nu. *)
Definition rho_of (u : Q) : Q := 1 / (1 - u).
Lemma rho_ok u : 0 <= u -> u < 1 -> 1 + u <= rho_of u /\ 1 <= rho_of u * (1 - u).
Proof.
  intros H H1. unfold rho_of. split.
  - apply Qle_shift_div_l; [lra|]. assert (0 <= u * u) by (apply mul_pos; assumption). lra.
  - setoid_replace (1 / (1 - u) * (1 - u)) with 1 by (field; lra). lra.
Qed.
Lemma power_linear u n : 0 <= u -> 2 * qnat n * u <= 1 -> u < 1 -> power_of (rho_of u) n - 1 <= 2 * qnat n * u.
Proof.
  intros Hu. induction n as [|n IH]; intros Hn H1.
  - cbn [power_of]. change (qnat 0) with 0. lra.
  - rewrite qnat_S in *. cbn [power_of].
    assert (Hn0 : 0 <= qnat n) by (unfold qnat; change 0 with (inject_Z 0); rewrite <- Zle_Qle; lia).
    assert (Hnu : 0 <= qnat n * u) by (apply mul_pos; assumption).
    assert (IH' : power_of (rho_of u) n <= 1 + 2 * qnat n * u) by (assert (power_of (rho_of u) n - 1 <= 2 * qnat n * u) by (apply IH; lra); lra).
    assert (Hr : rho_of u * power_of (rho_of u) n <= rho_of u * (1 + 2 * qnat n * u)).
    { apply mul_mono; [| |lra|exact IH'].
      - pose proof (rho_ok u Hu H1). lra.
      - pose proof (rho_ok u Hu H1) as [A _]. pose proof (pw_1 u (rho_of u) Hu A n). lra. }
    assert (Hs : rho_of u * (1 + 2 * qnat n * u) <= 1 + 2 * (qnat n + 1) * u).
    { unfold rho_of. setoid_replace (1 / (1 - u) * (1 + 2 * qnat n * u)) with ((1 + 2 * qnat n * u) / (1 - u)) by (field; lra).
      apply Qle_shift_div_r; [lra|].
      assert (E : 2 * (qnat n + 1) * u * u <= 1 * u) by (apply Qmult_le_compat_r; assumption). lra. }
    lra.
Qed.
