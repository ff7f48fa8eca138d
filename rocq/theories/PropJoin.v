(* C61: traces run one after another, on the wires and in what the program prints.
   When the wires have come to rest at the end of the first trace, all counts of
   the interface and all energies of both together are the sums of those of the
   two on their own. *)
From Coq Require Import NArith QArith List Bool.
From Verif Require Import Base Command CoreModel Bits WaveSpec BitFacts ToggleModel StatsModel EnergyModel EnergySpec IfEnergyModel IfEnergySpec InterfaceModel InterfaceSpec InterfaceExamples
  HistorySpec DeviceSpec DramModel DramSpec ProgressSpec ChargeSpec ComposeSpec CliModel CliSpec MemSpecModel MemSpecSpec WholeSpec WholeExamples JoinSpec JoinProofs JoinTop JoinExamples.
Import ListNotations.
Local Open Scope N_scope.

(* The interface takes both when it takes either. *)
Theorem C61_accepted : forall p bus cs1 cs2 T, trace_fits p bus cs1 -> trace_fits p bus cs2 -> quiet p bus cs1 T -> Forall (in_time p bus) (later T cs2) ->
  trace_fits p bus (cs1 ++ later T cs2).
Proof. exact fits_join. Qed.
Print Assumptions C61_accepted.
Theorem C61_quiet_again : forall p bus cs1 cs2 T t, quiet p bus cs1 T -> quiet p bus cs2 t -> quiet p bus (cs1 ++ later T cs2) (T + t).
Proof. exact quiet_join. Qed.
Print Assumptions C61_quiet_again.

(* What the wires of every group carry. *)
Theorem C61_wires : forall p cs1 cs2 T t, quiet p true cs1 T ->
  forall g, wire_counts p None (cs1 ++ later T cs2) (T + t) g = WaveSpec.add_exact (wire_counts p None cs1 T g) (wire_counts p None cs2 t g).
Proof. exact wires_join. Qed.
Print Assumptions C61_wires.
Theorem C61_wires_repeated : forall p cs T n, quiet p true cs T ->
  forall g, wire_counts p None (looped T cs n) (N.of_nat n * T) g = scale (N.of_nat n) (wire_counts p None cs T g).
Proof. exact wires_looped. Qed.
Print Assumptions C61_wires_repeated.

(* What the interface reports. *)
Theorem C61_statistics : forall p e i0 cs1 cs2 T t, InterfaceSpec.sizes_ok p -> (fi_std p = LPDDR6 -> fi_groups p = 4) -> iface_new p None = Value i0 ->
  trace_fits p true cs1 -> trace_fits p true cs2 -> calm p e None cs1 T -> calm p e None cs2 t -> quiet p true cs1 T -> Forall (fun c => cmd_ts c <= t) cs2 ->
  Forall (in_time p true) (later T cs2) -> countable p (T + t) ->
  exists i1 i2 i st1 st2 st,
    calls_run (map Do cs1) i0 = Value i1 /\ calls_run (map Do cs2) i0 = Value i2 /\ calls_run (map Do (cs1 ++ later T cs2)) i0 = Value i /\
    if_window i1 T sim_stats0 = Value st1 /\ if_window i2 t sim_stats0 = Value st2 /\ if_window i (T + t) sim_stats0 = Value st /\
    ss_commandBus st = WaveSpec.add_exact (ss_commandBus st1) (ss_commandBus st2) /\
    ss_readBus st = WaveSpec.add_exact (ss_readBus st1) (ss_readBus st2) /\ ss_writeBus st = WaveSpec.add_exact (ss_writeBus st1) (ss_writeBus st2) /\
    ss_clock st = WaveSpec.add_exact (ss_clock st1) (ss_clock st2) /\ ss_readDQS st = WaveSpec.add_exact (ss_readDQS st1) (ss_readDQS st2) /\
    (if two_clocks (fi_std p) then ss_wClock st = WaveSpec.add_exact (ss_wClock st1) (ss_wClock st2) else ss_writeDQS st = WaveSpec.add_exact (ss_writeDQS st1) (ss_writeDQS st2)).
Proof. exact statistics_join. Qed.
Print Assumptions C61_statistics.

(* What the program prints for two traces, and for a trace n times. *)
Theorem C61_program : forall p cs1 cs2 text1 text2 text, capable p -> dp_sim p = None -> soundly p cs1 -> soundly p cs2 ->
  rests (dp_core p) cs1 (ends cs1) -> quiet (dp_if p) true cs1 (ends cs1) ->
  timely (dp_core p) (cs1 ++ later (ends cs1) cs2) (ends cs1 + ends cs2) -> Forall (in_time (dp_if p) true) (later (ends cs1) cs2) -> countable (dp_if p) (ends cs1 + ends cs2) ->
  parse_command_list text1 = Value (Some cs1) -> parse_command_list text2 = Value (Some cs2) -> parse_command_list text = Value (Some (cs1 ++ later (ends cs1) cs2)) ->
  exists en1 ie1 en2 ie2 en ie a1 a2 a,
    program p text1 = Printed (Exactly en1) (Exactly ie1) (Exactly a1) /\ program p text2 = Printed (Exactly en2) (Exactly ie2) (Exactly a2) /\
    program p text = Printed (Exactly en) (Exactly ie) (Exactly a) /\
    (en_total en == en_total en1 + en_total en2)%Q /\ (a == a1 + a2)%Q /\
    forall s, (statics ie s == statics ie1 s + statics ie2 s)%Q /\ (dynamics ie s == dynamics ie1 s + dynamics ie2 s)%Q.
Proof. exact programs_join. Qed.
Print Assumptions C61_program.
Theorem C61_program_repeated : forall p cs, capable p -> dp_sim p = None -> soundly p cs -> rests (dp_core p) cs (ends cs) -> quiet (dp_if p) true cs (ends cs) ->
  forall n text1 text, timely (dp_core p) (looped (ends cs) cs n) (N.of_nat n * ends cs) -> Forall (in_time (dp_if p) true) (looped (ends cs) cs n) -> countable (dp_if p) (N.of_nat n * ends cs) ->
  parse_command_list text1 = Value (Some cs) -> parse_command_list text = Value (Some (looped (ends cs) cs n)) ->
  exists en1 ie1 en ie a1 a, program p text1 = Printed (Exactly en1) (Exactly ie1) (Exactly a1) /\ program p text = Printed (Exactly en) (Exactly ie) (Exactly a) /\
    (en_total en == qnat n * en_total en1)%Q /\ (a == qnat n * a1)%Q /\
    forall s, (statics ie s == qnat n * statics ie1 s)%Q /\ (dynamics ie s == qnat n * dynamics ie1 s)%Q.
Proof. exact programs_looped. Qed.
Print Assumptions C61_program_repeated.

(* A memory of each standard and a trace that reads, writes and refreshes, twice. *)
Example C61_program_case : forall s, exists m, mem_new (ex_whole s) = Value m /\ capable (views m None ex_grow None) /\
  soundly (views m None ex_grow None) run_commands /\ ends run_commands = 400 /\
  rests (core_view m) run_commands 400 /\ quiet (interface_view m ex_grow None) true run_commands 400 /\
  timely (core_view m) (run_commands ++ later 400 run_commands) (400 + 400) /\ Forall (in_time (interface_view m ex_grow None) true) (later 400 run_commands) /\
  countable (interface_view m ex_grow None) (400 + 400).
Proof. exact run_capable. Qed.
Example C61_program_text : parse_command_list (lines_text run_lines) = Value (Some run_commands) /\
  parse_command_list (lines_text (run_lines ++ again_lines)) = Value (Some (run_commands ++ later 400 run_commands)).
Proof. exact again_read. Qed.

(* With toggling rates the counts of the data lines are rounded down once for the
   whole time: those of both exceed the sums by less than one beat of all lines. *)
Theorem C61_estimates : forall p d cs1 cs2 T t, good_toggle d -> quiet p false cs1 T ->
  forall g, (g = RDQ \/ g = WDQ -> exceeds (dq_lines p) (wire_counts p (Some d) (cs1 ++ later T cs2) (T + t) g) (WaveSpec.add_exact (wire_counts p (Some d) cs1 T g) (wire_counts p (Some d) cs2 t g))) /\
    (g <> RDQ -> g <> WDQ -> wire_counts p (Some d) (cs1 ++ later T cs2) (T + t) g = WaveSpec.add_exact (wire_counts p (Some d) cs1 T g) (wire_counts p (Some d) cs2 t g)).
Proof. exact estimates_join. Qed.
Print Assumptions C61_estimates.
Theorem C61_estimates_refuted : exists p d cs1 cs2 T t st1 st2 st, InterfaceSpec.sizes_ok p /\ good_toggle d /\ trace_fits p false cs1 /\ trace_fits p false cs2 /\ quiet p false cs1 T /\
  stats_after p (Some d) (map Do cs1) T = Value st1 /\ stats_after p (Some d) (map Do cs2) t = Value st2 /\ stats_after p (Some d) (map Do (cs1 ++ later T cs2)) (T + t) = Value st /\
  ones (ss_togRead st1) + ones (ss_togRead st2) < ones (ss_togRead st).
Proof. exact rounded_once. Qed.
Print Assumptions C61_estimates_refuted.

(* The beat at rest is needed. *)
Theorem C61_no_pause_refuted : exists p cs1 cs2 T t st1 st2 st, InterfaceSpec.sizes_ok p /\ trace_fits p true cs1 /\ trace_fits p true cs2 /\ trace_fits p true (cs1 ++ later T cs2) /\
  Forall (fun c => cmd_ts c < T) cs1 /\
  stats_after p None (map Do cs1) T = Value st1 /\ stats_after p None (map Do cs2) t = Value st2 /\ stats_after p None (map Do (cs1 ++ later T cs2)) (T + t) = Value st /\
  ss_commandBus st <> WaveSpec.add_exact (ss_commandBus st1) (ss_commandBus st2).
Proof. exact no_pause. Qed.
Print Assumptions C61_no_pause_refuted.
