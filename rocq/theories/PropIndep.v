(* C67: which parts of the commands the statistics and energies depend on. *)
From Coq Require Import NArith List Bool.
From Verif Require Import Base Command CoreModel Bits HistorySpec StatsModel StatsSpec BusModel ToggleModel EnergyModel InterfaceModel InterfaceSpec DramModel DramSpec DramExamples ProgressExamples
  IndepSpec IndepTop IndepExamples.
Import ListNotations.
Local Open Scope N_scope.

(* The core: a history is accepted, and gives the same core and the same answers, or
   fails in the same way, whatever the groups, rows, columns and payloads. *)
Theorem C67_core_outcome p os os' s : map op_view os = map op_view os' -> run_ops p os s = run_ops p os' s.
Proof. exact (core_same p os os' s). Qed.
Print Assumptions C67_core_outcome.

(* The bank and rank numbers of a memory and its core energy: nothing the interface is
   asked or set to, and nothing of a command the core does not look at. *)
Theorem C67_core_numbers p d0 d e d1 e1 us us' t st st' :
  uses_run p us d0 = Returned d -> uses_run p us' d0 = Returned e -> dram_window p t d = Returned (d1, st) -> dram_window p t e = Returned (e1, st') ->
  map op_view (core_ops us) = map op_view (core_ops us') ->
  ss_bank st = ss_bank st' /\ map cs_cycles (ss_rank st) = map cs_cycles (ss_rank st') /\ calc_core_stats p st = calc_core_stats p st'.
Proof. exact (object_core_same p d0 d e d1 e1 us us' t st st'). Qed.
Print Assumptions C67_core_numbers.

(* The data buses, the estimates and the inversion lines: the bursts, the end and the
   inversion and metadata settings. *)
Theorem C67_data p d0 d e d1 e1 us us' t st st' :
  uses_run p us d0 = Returned d -> uses_run p us' d0 = Returned e -> dram_window p t d = Returned (d1, st) -> dram_window p t e = Returned (e1, st') ->
  seen data_view (iface_calls us) = seen data_view (iface_calls us') ->
  forall n, In n [ReadBus; WriteBus; TogglingRead; TogglingWrite; ReadDBI; WriteDBI] -> StatsSpec.bus_at st n = StatsSpec.bus_at st' n.
Proof. exact (object_data p d0 d e d1 e1 us us' t st st'). Qed.
Print Assumptions C67_data.

(* The estimates, if only they are made: the times and sizes of the bursts. *)
Theorem C67_estimates p d0 d e d1 e1 us us' t st st' :
  uses_run p us d0 = Returned d -> uses_run p us' d0 = Returned e -> dram_window p t d = Returned (d1, st) -> dram_window p t e = Returned (e1, st') ->
  d_mode (if_data (dr_if d0)) = ModeToggling -> seen burst_view (iface_calls us) = seen burst_view (iface_calls us') ->
  forall n, In n [ReadBus; WriteBus; TogglingRead; TogglingWrite] -> StatsSpec.bus_at st n = StatsSpec.bus_at st' n.
Proof. exact (object_estimates p d0 d e d1 e1 us us' t st st'). Qed.
Print Assumptions C67_estimates.

(* The strobes and the data clock: the times and sizes of the bursts and when the
   interface was switched. *)
Theorem C67_strobes p d0 d e d1 e1 us us' t st st' :
  uses_run p us d0 = Returned d -> uses_run p us' d0 = Returned e -> dram_window p t d = Returned (d1, st) -> dram_window p t e = Returned (e1, st') ->
  seen strobe_view (iface_calls us) = seen strobe_view (iface_calls us') ->
  forall n, In n [ReadDQS; WriteDQS; WClockStats] -> StatsSpec.bus_at st n = StatsSpec.bus_at st' n.
Proof. exact (object_strobes p d0 d e d1 e1 us us' t st st'). Qed.
Print Assumptions C67_strobes.

(* The clock: no command at all. *)
Theorem C67_clock p d0 d e d1 e1 us us' t st st' :
  uses_run p us d0 = Returned d -> uses_run p us' d0 = Returned e -> dram_window p t d = Returned (d1, st) -> dram_window p t e = Returned (e1, st') ->
  seen switch_view (iface_calls us) = seen switch_view (iface_calls us') -> StatsSpec.bus_at st ClockStats = StatsSpec.bus_at st' ClockStats.
Proof. exact (object_clock p d0 d e d1 e1 us us' t st st'). Qed.
Print Assumptions C67_clock.

(* The command bus: the commands sent with their addresses, the size of a burst (for
   the burst length it announces) and the parity setting; no payload. *)
Theorem C67_command_bus p d0 d e d1 e1 us us' t st st' :
  uses_run p us d0 = Returned d -> uses_run p us' d0 = Returned e -> dram_window p t d = Returned (d1, st) -> dram_window p t e = Returned (e1, st') ->
  seen (command_view (fi_std (if_spec (dr_if d0)))) (iface_calls us) = seen (command_view (fi_std (if_spec (dr_if d0)))) (iface_calls us') ->
  StatsSpec.bus_at st CommandBus = StatsSpec.bus_at st' CommandBus.
Proof. exact (object_commands p d0 d e d1 e1 us us' t st st'). Qed.
Print Assumptions C67_command_bus.

(* Another payload: the same bank and rank numbers, core energy, command bus, clocks and
   strobes; where only estimates are made, the same numbers on the data buses too. *)
Theorem C67_payload p d0 d e d1 e1 us us' t st st' :
  uses_run p us d0 = Returned d -> uses_run p us' d0 = Returned e -> dram_window p t d = Returned (d1, st) -> dram_window p t e = Returned (e1, st') ->
  Forall2 (matching but_payload) us us' ->
  ss_bank st = ss_bank st' /\ ss_rank st = ss_rank st' /\ calc_core_stats p st = calc_core_stats p st' /\
  (forall n, In n [CommandBus; ClockStats; WClockStats; ReadDQS; WriteDQS] -> StatsSpec.bus_at st n = StatsSpec.bus_at st' n) /\
  (d_mode (if_data (dr_if d0)) = ModeToggling -> forall n, ~ In n [ReadDBI; WriteDBI] -> StatsSpec.bus_at st n = StatsSpec.bus_at st' n).
Proof. exact (payload_free p d0 d e d1 e1 us us' t st st'). Qed.
Print Assumptions C67_payload.

(* Other groups, rows and columns: the same numbers everywhere but on the command bus. *)
Theorem C67_place p d0 d e d1 e1 us us' t st st' :
  uses_run p us d0 = Returned d -> uses_run p us' d0 = Returned e -> dram_window p t d = Returned (d1, st) -> dram_window p t e = Returned (e1, st') ->
  Forall2 (matching but_place) us us' ->
  ss_bank st = ss_bank st' /\ ss_rank st = ss_rank st' /\ calc_core_stats p st = calc_core_stats p st' /\
  (forall n, n <> CommandBus -> StatsSpec.bus_at st n = StatsSpec.bus_at st' n).
Proof. exact (place_free p d0 d e d1 e1 us us' t st st'). Qed.
Print Assumptions C67_place.

(* On all five standards a day can be had with the complement of its payload: it runs,
   and the data buses do differ; and with other places: it runs, and the command bus
   does differ. *)
Example C67_payload_case s : exists d0 d e d1 e1 st st', dram_new (ex_dspec s) = Value d0 /\
  uses_run (ex_dspec s) (dram_day s) d0 = Returned d /\ uses_run (ex_dspec s) (map (change other_payload) (dram_day s)) d0 = Returned e /\
  dram_window (ex_dspec s) 200 d = Returned (d1, st) /\ dram_window (ex_dspec s) 200 e = Returned (e1, st') /\ StatsSpec.bus_at st ReadBus <> StatsSpec.bus_at st' ReadBus.
Proof. apply changed_runs_true. exact (proj1 (other_runs s)). Qed.
Example C67_payload_matching s : Forall2 (matching but_payload) (dram_day s) (map (change other_payload) (dram_day s)).
Proof. apply payload_changed. Qed.
Example C67_estimates_case s : exists d0 d e x y, dram_new (with_sim (ex_dspec s) toggle_sim) = Value d0 /\ d_mode (if_data (dr_if d0)) = ModeToggling /\
  uses_run (with_sim (ex_dspec s) toggle_sim) (dram_day s) d0 = Returned d /\ uses_run (with_sim (ex_dspec s) toggle_sim) (map (change other_payload) (dram_day s)) d0 = Returned e /\
  dram_window (with_sim (ex_dspec s) toggle_sim) 200 d = Returned x /\ dram_window (with_sim (ex_dspec s) toggle_sim) 200 e = Returned y.
Proof. exact (estimated_runs_true s (estimated s)). Qed.
Example C67_place_case s : exists d0 d e d1 e1 st st', dram_new (ex_dspec s) = Value d0 /\
  uses_run (ex_dspec s) (dram_day s) d0 = Returned d /\ uses_run (ex_dspec s) (map (change other_place) (dram_day s)) d0 = Returned e /\
  dram_window (ex_dspec s) 200 d = Returned (d1, st) /\ dram_window (ex_dspec s) 200 e = Returned (e1, st') /\ StatsSpec.bus_at st CommandBus <> StatsSpec.bus_at st' CommandBus.
Proof. apply changed_runs_true. exact (proj2 (other_runs s)). Qed.
Example C67_place_matching s : Forall2 (matching but_place) (dram_day s) (map (change other_place) (dram_day s)).
Proof. apply place_changed. Qed.
Example C67_views_case s : map op_view (core_ops (dram_day s)) = map op_view (core_ops (map (change other_place) (dram_day s))) /\
  seen data_view (iface_calls (dram_day s)) = seen data_view (iface_calls (map (change other_place) (dram_day s))) /\
  seen burst_view (iface_calls (dram_day s)) = seen burst_view (iface_calls (map (change other_payload) (dram_day s))) /\
  seen strobe_view (iface_calls (dram_day s)) = seen strobe_view (iface_calls (map (change other_payload) (dram_day s))) /\
  seen switch_view (iface_calls (dram_day s)) = seen switch_view (iface_calls (map (change other_payload) (dram_day s))) /\
  seen (command_view s) (iface_calls (dram_day s)) = seen (command_view s) (iface_calls (map (change other_payload) (dram_day s))).
Proof. destruct s; repeat split. Qed.
