(* Once nothing is pending the ranks stay as they are and the core draws constant
   power. *)
From Coq Require Import ZArith NArith QArith List Bool Lia Lqa Arith Permutation.
From Verif Require Import Base Command CoreModel HistorySpec CoreBounds CoreBasics GrowProofs SettleProofs.
From Verif Require Import DeviceSpec DeviceFacts RefineBase RefineRun RefineMain SettleSpec SettleTop.
From Verif Require Import StatsModel EnergyModel EnergySpec EnergyProofs ChargeSpec ChargeBase ChargeProofs ChargeTop BoundSpec.
Import ListNotations.
Local Open Scope N_scope.

Lemma settle_still t d : waits d = [] -> settle t d = d.
Proof.
  intros H. unfold waits in H. apply app_eq_nil in H as [H1 H2]. unfold settle.
  destruct (dv_pend d) as [[x m]|] eqn:P; [discriminate|].
  assert (map (settle_bank t) (dv_banks d) = dv_banks d) as ->.
  { revert H1. induction (dv_banks d) as [|b bs IH]; cbn; [reflexivity|]. intros H. apply app_eq_nil in H as [A B].
    rewrite (IH B). f_equal. unfold settle_bank. destruct (sb_state b); try discriminate; reflexivity. }
  destruct d; cbn in *; congruence.
Qed.

Lemma timely_shorter p cs T t : timely p cs t -> final_time 0 (map cmd_ts cs) <= T -> T <= t -> timely p cs T.
Proof. intros (A & B & C & D & E) F G. repeat split; auto; lia. Qed.

Lemma settled_device p cs T t r : DeviceSpec.well_formed p -> timely p cs t -> legal_history p cs -> (r < ms_ranks p)%nat ->
  final_time 0 (map cmd_ts cs) + tmax p <= T -> T <= t ->
  exists d, device_at p r cs T = Some d /\ device_at p r cs t = Some d /\ waits d = [].
Proof.
  intros W Tt L Hr HF HT. pose proof (timely_shorter p cs T t Tt ltac:(lia) HT) as TT.
  pose proof Tt as (T1 & T2 & T3 & T4 & T5). pose proof L as [L1 L2].
  destruct (legal_accepted p cs t W Tt L1 L2) as [s H].
  destruct (pending_exactly p cs T s r W TT Hr (L2 r Hr) H) as (d & D & P).
  pose proof (settled_queue p cs s T T1 T2 H HF) as S. unfold is_serializable in S.
  destruct (co_queue (fst (window_stats p T s))); [|discriminate]. cbn in P. apply Permutation_nil in P.
  exists d. split; [exact D|]. split; [|exact P].
  pose proof (L2 r Hr) as Lr. unfold legal in Lr.
  destruct (run_device p (filter (to_rank r) cs) (device_new p)) as [d0|] eqn:E; [|congruence].
  rewrite (device_now p r cs T d0 T1 ltac:(lia) E) in D. rewrite (device_now p r cs t d0 T1 T3 E).
  injection D as <-. rewrite <- (settle_settle T t d0 HT). now rewrite settle_still.
Qed.

Local Open Scope Q_scope.

Lemma settled_charge p e w I r cs T : DeviceSpec.well_formed p -> legal_history p cs -> (r < ms_ranks p)%nat ->
  (final_time 0 (map cmd_ts cs) + tmax p <= T)%N -> forall n, timely p cs (T + N.of_nat n) ->
  charge p e w I r cs (T + N.of_nat n) == charge p e w I r cs T + qnat n * (match device_at p r cs T with Some d => standby w I d | None => 0 end * es_tCK e).
Proof.
  intros W L Hr HF. induction n as [|n IH]; intros Tn.
  - rewrite N.add_0_r. change (qnat 0) with 0. ring.
  - rewrite Nat2N.inj_succ, <- N.add_1_r, N.add_assoc in Tn |- *.
    assert (timely p cs (T + N.of_nat n)) as Tm by (apply (timely_shorter p cs _ _ Tn); lia).
    specialize (IH Tm). destruct L as [L1 L2].
    assert (T + N.of_nat n + 1 < two64)%N as HB by (destruct Tn as (_ & _ & _ & ? & _); assumption).
    destruct (charge_step p e w I r cs (T + N.of_nat n) W Tm HB (L2 r Hr)) as (d & d' & D & D' & _ & E).
    destruct (settled_device p cs T (T + N.of_nat n) r W Tm (conj L1 L2) Hr HF ltac:(lia)) as (d1 & A1 & A2 & _).
    destruct (settled_device p cs T (T + N.of_nat n + 1) r W Tn (conj L1 L2) Hr HF ltac:(lia)) as (d2 & B1 & B2 & _).
    assert (d1 = d /\ d' = d) as [-> ->] by (split; congruence). rewrite A1 in *.
    rewrite E, IH, Nat.sub_diag. change (qnat 0) with 0.
    assert (qnat (S n) == qnat n + 1) as -> by (unfold qnat; rewrite Nat2Z.inj_succ, <- Z.add_1_r, inject_Z_plus; reflexivity).
    ring.
Qed.

Theorem settled_power p e I cs T t : DeviceSpec.well_formed p -> EnergySpec.well_formed e -> same_memory p e -> backgrounds e I ->
  timely p cs t -> legal_history p cs -> (final_time 0 (map cmd_ts cs) + tmax p <= T)%N -> (T <= t)%N ->
  exists x y, core_energy p e cs T x /\ core_energy p e cs t y /\ y == x + qn (t - T) * es_tCK e * resting_power p e I cs T.
Proof.
  intros Wp We SM B Tt L HF HT. pose proof (timely_shorter p cs T t Tt ltac:(lia) HT) as TT. pose proof L as [L1 L2].
  destruct (legal_accepted p cs t Wp Tt L1 L2) as [s H].
  destruct (core_energy_charge p e I cs T s Wp We SM B TT L H) as (en & C & E).
  destruct (core_energy_charge p e I cs t s Wp We SM B Tt L H) as (en' & C' & E').
  exists (en_total en), (en_total en'). split; [exists s, en; auto|]. split; [exists s, en'; auto|].
  rewrite E, E'. unfold resting_power. rewrite <- qsum_scale, <- qsum_plus. apply qsum_ext. intros w _.
  rewrite <- qsum_scale, <- qsum_plus. apply qsum_ext. intros r Hr. apply in_seq in Hr.
  pose proof (settled_charge p e w (I w) r cs T Wp L ltac:(lia) HF (N.to_nat (t - T))) as Z.
  rewrite N2Nat.id in Z. replace (T + (t - T))%N with t in Z by lia. rewrite (Z Tt).
  assert (qnat (N.to_nat (t - T)) == qn (t - T)) as -> by (rewrite <- qn_nat, N2Nat.id; reflexivity).
  ring.
Qed.
