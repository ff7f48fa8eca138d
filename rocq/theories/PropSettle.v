(* What is still to come after the last command: C74. *)
From Coq Require Import NArith QArith List Bool Lia Permutation.
From Verif Require Import Base Command CoreModel HistorySpec DeviceSpec ExampleCores EnergyModel EnergySpec ChargeSpec BoundSpec.
From Verif Require Import SettleSpec SettleProofs SettleTop SettlePower DramModel DramExamples ChargeTop.
Import ListNotations.
Local Open Scope N_scope.

(* Every history, legal or not: an implicit command is due no earlier than the
   last command and no later than the longest delay of the memory after it. *)
Theorem C74_horizon : forall p cs s,
  nondecreasing 0 (map cmd_ts cs) -> no_overflow p (map cmd_ts cs) -> run_core p cs (core_new p) = Ok s ->
  Forall (fun e => final_time 0 (map cmd_ts cs) <= fst e /\ fst e <= final_time 0 (map cmd_ts cs) + tmax p) (co_queue s).
Proof. exact pending_window. Qed.
Print Assumptions C74_horizon.
(* A refresh of all banks, a read with auto-precharge of the other rank, and a
   power-down that waits for the refresh. *)
Definition soon : list Command := [at_ 0 ACT 1 2; at_ 7 REFA 0 0; at_ 7 PDEP 0 0; at_ 7 RDA 1 2].
Example C74_horizon_case :
  nondecreasing 0 (map cmd_ts soon) /\ no_overflow ex_ddr4 (map cmd_ts soon) /\ tmax ex_ddr4 = 100 /\
  exists s, run_core ex_ddr4 soon (core_new ex_ddr4) = Ok s /\ map fst (co_queue s) = [20; 107; 107; 107; 107; 107].
Proof.
  split; [vm_compute; repeat split; discriminate|]. split; [repeat constructor|]. split; [reflexivity|].
  eexists. split; vm_compute; reflexivity.
Qed.

(* Asked any later than that, the core has nothing left to do and can be saved. *)
Theorem C74_settles : forall p cs s t,
  nondecreasing 0 (map cmd_ts cs) -> no_overflow p (map cmd_ts cs) -> run_core p cs (core_new p) = Ok s ->
  final_time 0 (map cmd_ts cs) + tmax p <= t -> is_serializable (fst (window_stats p t s)) = true.
Proof. exact settled_queue. Qed.
Print Assumptions C74_settles.
(* And not a cycle sooner. *)
Example C74_settles_case : exists s, run_core ex_ddr4 soon (core_new ex_ddr4) = Ok s /\
  is_serializable (fst (window_stats ex_ddr4 106 s)) = false /\ is_serializable (fst (window_stats ex_ddr4 107 s)) = true.
Proof. eexists. split; [vm_compute; reflexivity|]. split; vm_compute; reflexivity. Qed.

(* From then on each time of a rank or bank runs for ever or stands for ever, and
   the counters stand. *)
Theorem C74_rank_times : forall p cs T s,
  nondecreasing 0 (map cmd_ts cs) -> no_overflow p (map cmd_ts cs) -> run_core p cs (core_new p) = Ok s ->
  final_time 0 (map cmd_ts cs) + tmax p <= T -> forall r c, T < two64 ->
  shown_rank (snd (window_stats p T s)) r = Some c ->
  exists runs, length runs = 5%nat /\ forall t, T <= t -> t < two64 ->
    exists c', shown_rank (snd (window_stats p t s)) r = Some c' /\ shown_counts c' = all_after (t - T) (shown_counts c) runs.
Proof. exact settled_rank. Qed.
Print Assumptions C74_rank_times.
Example C74_rank_times_case : exists s c c', run_core ex_ddr4 soon (core_new ex_ddr4) = Ok s /\
  shown_rank (snd (window_stats ex_ddr4 107 s)) 0 = Some c /\ shown_rank (snd (window_stats ex_ddr4 150 s)) 0 = Some c' /\
  shown_counts c = [100; 0; 0; 0; 0] /\ shown_counts c' = [100; 0; 43; 0; 0] /\
  all_after (150 - 107) (shown_counts c) [false; false; true; false; false] = shown_counts c'.
Proof. do 3 eexists. split; [vm_compute; reflexivity|]. split; [vm_compute; reflexivity|]. split; [vm_compute; reflexivity|]. repeat split. Qed.

Theorem C74_bank_times : forall p cs T s,
  nondecreasing 0 (map cmd_ts cs) -> no_overflow p (map cmd_ts cs) -> run_core p cs (core_new p) = Ok s ->
  final_time 0 (map cmd_ts cs) + tmax p <= T -> forall r b c, T < two64 -> (b < ms_banks p)%nat ->
  shown_bank p (snd (window_stats p T s)) r b = Some c ->
  exists runs, length runs = 5%nat /\ forall t, T <= t -> t < two64 ->
    exists c', shown_bank p (snd (window_stats p t s)) r b = Some c' /\ bs_counter c' = bs_counter c /\
      shown_counts (bs_cycles c') = all_after (t - T) (shown_counts (bs_cycles c)) runs.
Proof. exact settled_bank. Qed.
Print Assumptions C74_bank_times.
Example C74_bank_times_case : exists s c c', run_core ex_ddr4 soon (core_new ex_ddr4) = Ok s /\ (2 < ms_banks ex_ddr4)%nat /\
  shown_bank ex_ddr4 (snd (window_stats ex_ddr4 107 s)) 1 2 = Some c /\ shown_bank ex_ddr4 (snd (window_stats ex_ddr4 150 s)) 1 2 = Some c' /\
  shown_counts (bs_cycles c) = [20; 0; 0; 0; 0] /\ shown_counts (bs_cycles c') = [20; 0; 0; 0; 0] /\ bs_counter c' = bs_counter c.
Proof. do 3 eexists. split; [vm_compute; reflexivity|]. split; [cbn; lia|]. split; [vm_compute; reflexivity|]. split; [vm_compute; reflexivity|]. repeat split. Qed.

(* For a legal history the implicit commands pending for a rank are one for each
   row that auto-precharge will close, one for each refresh that will end, and one
   for a change of mode under way. *)
Theorem C74_pending_exactly : forall p cs t s r,
  DeviceSpec.well_formed p -> timely p cs t -> (r < ms_ranks p)%nat -> legal p r cs -> run_core p cs (core_new p) = Ok s ->
  exists d, device_at p r cs t = Some d /\
    Permutation (map fst (filter (fun e => Nat.eqb (fst (snd e)) r) (co_queue (fst (window_stats p t s))))) (waits d).
Proof. exact pending_exactly. Qed.
Print Assumptions C74_pending_exactly.
Example C74_pending_exactly_case : timely ex_ddr4 soon 10 /\ legal_history ex_ddr4 soon /\
  option_map waits (device_at ex_ddr4 0 soon 10) = Some [107; 107; 107; 107; 107] /\ option_map waits (device_at ex_ddr4 1 soon 10) = Some [20].
Proof. split; [show_timely|]. split; [show_legal|]. split; vm_compute; reflexivity. Qed.

(* So their number is bounded by the size of the memory, however long the trace. *)
Theorem C74_pending_bound : forall p cs t s,
  DeviceSpec.well_formed p -> timely p cs t -> legal_history p cs -> run_core p cs (core_new p) = Ok s ->
  (length (co_queue s) <= (ms_ranks p + 1) * (ms_banks p + 1))%nat.
Proof. exact queue_length. Qed.
Print Assumptions C74_pending_bound.
Example C74_pending_bound_case : timely ex_ddr4 soon 10 /\ legal_history ex_ddr4 soon /\
  exists s, run_core ex_ddr4 soon (core_new ex_ddr4) = Ok s /\ length (co_queue s) = 6%nat.
Proof. split; [show_timely|]. split; [show_legal|]. eexists. split; vm_compute; reflexivity. Qed.

(* Histories that break the rules are executed too, and fill the queue. *)
Theorem C74_any_history_bounded_refuted : forall n, exists p cs s,
  DeviceSpec.well_formed p /\ nondecreasing 0 (map cmd_ts cs) /\ no_overflow p (map cmd_ts cs) /\
  run_core p cs (core_new p) = Ok s /\ (n < length (co_queue s))%nat.
Proof. exact no_bound. Qed.
Print Assumptions C74_any_history_bounded_refuted.

(* Once everything has happened the core draws constant power: the standby power
   of the states its ranks are left in. *)
Theorem C74_constant_power : forall p e I cs T t,
  DeviceSpec.well_formed p -> EnergySpec.well_formed e -> same_memory p e -> backgrounds e I ->
  timely p cs t -> legal_history p cs -> final_time 0 (map cmd_ts cs) + tmax p <= T -> T <= t ->
  exists x y, core_energy p e cs T x /\ core_energy p e cs t y /\ (y == x + qn (t - T) * es_tCK e * resting_power p e I cs T)%Q.
Proof. exact settled_power. Qed.
Print Assumptions C74_constant_power.
(* Bank 2 is left open. *)
Example C74_constant_power_case : let p := dp_core (ex_dspec DDR4) in let e := dp_ce (ex_dspec DDR4) in
  DeviceSpec.well_formed p /\ EnergySpec.well_formed e /\ same_memory p e /\ (exists I, backgrounds e I) /\
  timely p short_day 1000 /\ legal_history p short_day /\ final_time 0 (map cmd_ts short_day) + tmax p <= 500 /\
  option_map busy_banks (device_at p 0 short_day 500) = Some 1%nat.
Proof.
  cbv zeta. split; [split; [cbn; lia|discriminate]|]. split; [apply ex_energy_formed|]. split; [apply ex_same|].
  split; [apply backgrounds_exist, ex_energy_formed|]. split; [show_timely|]. split; [show_legal|]. split; [vm_compute; discriminate|]. vm_compute. reflexivity.
Qed.
