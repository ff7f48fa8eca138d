(* How long a full burst lasts for the core and for the interface. *)
From Coq Require Import NArith QArith List Bool Arith Lia.
From Verif Require Import Base Command CoreModel Bits EnergyModel EnergySpec IfEnergyModel InterfaceModel InterfaceSpec MemSpecModel MemSpecSpec MemSpecProofs EnergyLoops.
Import ListNotations.
Local Open Scope N_scope.
Ltac Zify.zify_post_hook ::= idtac.

Section Burst.
Context (w : raw) (m : mem) (grow : nat -> nat) (wild : option (nat -> bool)) (bus : bool) (c : Command)
  (Mem : mem_new w = Value m) (So : sound w).
Let p := interface_view m grow wild.
Context (Full : burst_bits p bus c = rw_bl w * dq_lines p).

Lemma lines_exist : 0 < dq_lines p.
Proof using Full Mem So.
  pose proof (interface_takes_all w m grow wild Mem) as IT. unfold dq_lines. fold p in IT. rewrite (proj1 (it_width _ _ _ IT)), (it_devices _ _ _ IT).
  apply N.mul_pos_pos; [apply (so_lines w So)|lia].
Qed.
Lemma full_burst : burst_beats p bus c = rw_bl w /\ burst_cycles p bus c = rw_bl w / rw_dr w.
Proof using Full Mem So.
  pose proof lines_exist. assert (burst_beats p bus c = rw_bl w) as E by (unfold burst_beats; rewrite Full; apply N.div_mul; lia).
  split; [exact E|]. unfold burst_cycles. rewrite E. pose proof (interface_takes_all w m grow wild Mem) as IT. fold p in IT. now rewrite (proj1 (it_rate _ _ _ IT)).
Qed.
Lemma qn_inject n : qn n = inject_Z (Z.of_N n).
Proof. reflexivity. Qed.
Lemma one_clock : two_clocks (rw_std w) = false ->
  burst_cycles p bus c = burst_clocks w /\ ((rw_dr w | rw_bl w) -> qn (burst_cycles p bus c) * is_tCK (ifenergy_view m) == EnergySpec.burst_time (energy_view m))%Q.
Proof using Full Mem So.
  intros T. destruct full_burst as [_ E]. rewrite E. split; [unfold burst_clocks; destruct (rw_std w); try reflexivity; discriminate|].
  intros [k K]. pose proof (so_rate w So) as R0. rewrite K, N.div_mul by lia.
  pose proof (interface_takes_all w m grow wild Mem) as IT. pose proof (core_takes_all w m Mem) as CT.
  unfold EnergySpec.burst_time. rewrite (proj1 (it_clock _ _ _ IT)), (proj2 (ct_std _ _ _ CT)), (proj1 (ct_burst _ _ _ CT)), (proj2 (ct_burst _ _ _ CT)), (proj1 (ct_clock _ _ _ CT)), K, qn_mul.
  assert (~ qn (rw_dr w) == 0)%Q as Z. { unfold qn. intros H. unfold Qeq in H. cbn in H. lia. }
  destruct (rw_std w); try discriminate; field; exact Z.
Qed.
Lemma both_clocks : two_clocks (rw_std w) = true -> rw_wck w <> 0 -> (rw_dr w * rw_wck w | rw_bl w) ->
  burst_cycles p bus c = rw_wck w * burst_clocks w /\ (qn (burst_cycles p bus c) * is_tCK (ifenergy_view m) == qn (rw_wck w) * EnergySpec.burst_time (energy_view m))%Q.
Proof using Full Mem So.
  intros T W [k K]. destruct full_burst as [_ E]. rewrite E. pose proof (so_rate w So) as R0.
  assert (rw_bl w / rw_dr w = rw_wck w * k) as E1 by (rewrite K; replace (k * (rw_dr w * rw_wck w)) with (rw_wck w * k * rw_dr w) by lia; apply N.div_mul; lia).
  assert (burst_clocks w = k) as E2.
  { transitivity (rw_bl w / (rw_dr w * rw_wck w)); [unfold burst_clocks; destruct (rw_std w); try reflexivity; discriminate|]. rewrite K. apply N.div_mul. lia. }
  rewrite E1, E2. split; [reflexivity|].
  pose proof (interface_takes_all w m grow wild Mem) as IT. pose proof (core_takes_all w m Mem) as CT.
  unfold EnergySpec.burst_time. rewrite (proj1 (it_clock _ _ _ IT)), (proj2 (ct_std _ _ _ CT)), (proj1 (ct_burst _ _ _ CT)), (proj2 (ct_burst _ _ _ CT)), K, !qn_mul.
  assert (~ qn (rw_dr w) == 0)%Q as Z. { unfold qn. intros H. unfold Qeq in H. cbn in H. lia. }
  rewrite <- (proj2 (ct_clock _ _ _ CT) W), <- qn_inject.
  destruct (rw_std w); try discriminate; field; exact Z.
Qed.
Lemma clocks_differ : two_clocks (rw_std w) = true -> 2 <= rw_wck w -> (rw_dr w * rw_wck w | rw_bl w) -> 0 < rw_bl w -> burst_clocks w < burst_cycles p bus c.
Proof using Full Mem So.
  intros T W D B. destruct (both_clocks T) as [E _]; [lia|exact D|]. rewrite E. destruct D as [k K]. pose proof (so_rate w So) as R0.
  assert (0 < burst_clocks w) as P.
  { destruct (N.eq_dec (burst_clocks w) 0) as [Z|Z]; [|lia]. exfalso. rewrite Z, N.mul_0_r in E. destruct full_burst as [_ E']. rewrite E in E'. symmetry in E'.
    rewrite K in E'. replace (k * (rw_dr w * rw_wck w)) with (rw_wck w * k * rw_dr w) in E' by lia. rewrite N.div_mul in E' by lia. rewrite K in B. nia. }
  nia.
Qed.
End Burst.
