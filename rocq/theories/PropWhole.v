(* C53: from the description of a memory and the text of a trace to the energies
   printed.  C54: how long a burst lasts for the two halves of an object. *)
From Coq Require Import NArith QArith List Bool.
From Verif Require Import Base Command CoreModel Bits ToggleModel EnergyModel EnergySpec IfEnergyModel IfEnergySpec InterfaceModel InterfaceSpec HistorySpec DeviceSpec
  DramModel DramSpec ProgressSpec ProgressExamples ChargeSpec CliModel CliSpec MemSpecModel MemSpecSpec WholeSpec WholeProofs WholeExamples BurstTimes.
Import ListNotations.
Local Open Scope N_scope.

(* ---- C53 ---- *)

(* A sound description is taken by every part; and if the trace keeps to the rules
   of the device and of the buses, the program runs it to its end and prints, for
   the core, voltage times the charge that the device draws cycle by cycle, and for
   either side of the interface, V^2/R for the time the terminated lines it drives
   are at the burning level and an energy for each of their rising edges.  The
   levels are those of the waveforms the commands call for. *)
Theorem C53_program : forall w sim grow wild I ls cs, sound w -> rw_banks w < 2 ^ 60 -> sim_good sim ->
  exists m, mem_new w = Value m /\
  (Forall line_ok ls -> no_mark (lines_text ls) -> Forall2 (fun l c => proper (fields (li_cells l)) c) ls cs -> backgrounds (energy_view m) I ->
   let t := final_time 0 (map cmd_ts cs) in
   timely (core_view m) cs t -> legal_history (core_view m) cs -> trace_fits (interface_view m grow wild) (no_toggle sim) cs ->
   calm (interface_view m grow wild) (ifenergy_view m) sim cs t ->
   exists en ie, program (views m sim grow wild) (lines_text ls) = Printed (Exactly en) (Exactly ie) (Exactly (en_total en + ie_total ie)%Q) /\
    (en_total en == core_charge (core_view m) (energy_view m) I cs t)%Q /\
    forall s, (statics ie s == qsum (wire_static (interface_view m grow wild) (ifenergy_view m) sim cs t) (driven_groups (interface_view m grow wild) s) /\
               dynamics ie s == qsum (wire_dynamic (interface_view m grow wild) (ifenergy_view m) sim cs t) (driven_groups (interface_view m grow wild) s))%Q).
Proof. exact whole_program. Qed.
Print Assumptions C53_program.
Example C53_program_sound : forall s, sound (ex_whole s) /\ rw_banks (ex_whole s) < 2 ^ 60.
Proof. exact ex_sound. Qed.
Example C53_program_text : Forall line_ok run_lines /\ no_mark (lines_text run_lines) /\ Forall2 (fun l c => proper (fields (li_cells l)) c) run_lines run_commands.
Proof. exact (conj run_lines_ok (conj run_unmarked run_proper)). Qed.
Example C53_program_case : forall s, exists m, mem_new (ex_whole s) = Value m /\
  timely (core_view m) run_commands 400 /\ legal_history (core_view m) run_commands /\ final_time 0 (map cmd_ts run_commands) = 400 /\
  (trace_fits (interface_view m ex_grow None) true run_commands /\ calm (interface_view m ex_grow None) (ifenergy_view m) None run_commands 400) /\
  (trace_fits (interface_view m ex_grow None) false run_commands /\ calm (interface_view m ex_grow None) (ifenergy_view m) toggle_sim run_commands 400).
Proof. exact run_meets. Qed.

(* The same of any object whose parts agree, however it was described. *)
Theorem C53_object : forall p I text cs d0, parse_command_list text = Value (Some cs) -> views_agree p -> same_memory (dp_core p) (dp_ce p) -> dram_new p = Value d0 ->
  DeviceSpec.well_formed (dp_core p) -> EnergySpec.well_formed (dp_ce p) -> backgrounds (dp_ce p) I -> sim_good (dp_sim p) ->
  InterfaceSpec.sizes_ok (dp_if p) -> (fi_std (dp_if p) = LPDDR6 -> fi_groups (dp_if p) = 4) ->
  let t := final_time 0 (map cmd_ts cs) in
  timely (dp_core p) cs t -> legal_history (dp_core p) cs -> trace_fits (dp_if p) (no_toggle (dp_sim p)) cs -> calm (dp_if p) (dp_ie p) (dp_sim p) cs t ->
  exists en ie, program p text = Printed (Exactly en) (Exactly ie) (Exactly (en_total en + ie_total ie)%Q) /\
    (en_total en == core_charge (dp_core p) (dp_ce p) I cs t)%Q /\
    forall s, (statics ie s == qsum (wire_static (dp_if p) (dp_ie p) (dp_sim p) cs t) (driven_groups (dp_if p) s) /\
               dynamics ie s == qsum (wire_dynamic (dp_if p) (dp_ie p) (dp_sim p) cs t) (driven_groups (dp_if p) s))%Q.
Proof. exact program_energy. Qed.
Print Assumptions C53_object.

(* ---- C54 ---- *)

(* With one clock, a full burst keeps the strobe running for as many cycles as the
   core reckons until the precharge, and for the time for which the energy
   calculation charges it. *)
Theorem C54_one_clock : forall w m grow wild bus c, mem_new w = Value m -> sound w ->
  burst_bits (interface_view m grow wild) bus c = rw_bl w * dq_lines (interface_view m grow wild) -> two_clocks (rw_std w) = false ->
  burst_cycles (interface_view m grow wild) bus c = burst_clocks w /\
  ((rw_dr w | rw_bl w) -> qn (burst_cycles (interface_view m grow wild) bus c) * is_tCK (ifenergy_view m) == EnergySpec.burst_time (energy_view m))%Q.
Proof. exact one_clock. Qed.
Print Assumptions C54_one_clock.
(* With two, the interface takes the data rate as beats in a cycle of the slow
   clock, the core as beats in a cycle of the fast one: the times differ by the
   ratio of the clocks, whatever data rate is given. *)
Theorem C54_two_clocks : forall w m grow wild bus c, mem_new w = Value m -> sound w ->
  burst_bits (interface_view m grow wild) bus c = rw_bl w * dq_lines (interface_view m grow wild) -> two_clocks (rw_std w) = true -> rw_wck w <> 0 -> (rw_dr w * rw_wck w | rw_bl w) ->
  burst_cycles (interface_view m grow wild) bus c = rw_wck w * burst_clocks w /\
  (qn (burst_cycles (interface_view m grow wild) bus c) * is_tCK (ifenergy_view m) == qn (rw_wck w) * EnergySpec.burst_time (energy_view m))%Q.
Proof. exact both_clocks. Qed.
Print Assumptions C54_two_clocks.
Theorem C54_two_clocks_differ : forall w m grow wild bus c, mem_new w = Value m -> sound w ->
  burst_bits (interface_view m grow wild) bus c = rw_bl w * dq_lines (interface_view m grow wild) -> two_clocks (rw_std w) = true -> 2 <= rw_wck w -> (rw_dr w * rw_wck w | rw_bl w) -> 0 < rw_bl w ->
  burst_clocks w < burst_cycles (interface_view m grow wild) bus c.
Proof. exact clocks_differ. Qed.
Print Assumptions C54_two_clocks_differ.
Example C54_case : forall s, exists m, mem_new (ex_whole s) = Value m /\
  let p := interface_view m ex_grow None in let c := mkCommand 30 RD 0 0 0 3 9 8 [] 0 in
  burst_bits p false c = rw_bl (ex_whole s) * dq_lines p /\ (rw_dr (ex_whole s) | rw_bl (ex_whole s)) /\
  (two_clocks s = true -> rw_wck (ex_whole s) = 2 /\ (rw_dr (ex_whole s) * rw_wck (ex_whole s) | rw_bl (ex_whole s))) /\
  (burst_cycles p false c, burst_clocks (ex_whole s)) = match s with LPDDR5 => (4, 2) | LPDDR6 => (6, 3) | _ => (8, 8) end.
Proof.
  intros s. destruct s; (eexists; split; [reflexivity|]); cbv zeta; (split; [reflexivity|]); (split; [first [exists 8; reflexivity|exists 4; reflexivity|exists 6; reflexivity]|]);
    (split; [first [discriminate|intros _; split; [reflexivity|first [exists 2; reflexivity|exists 3; reflexivity]]]|reflexivity]).
Qed.

Theorem C54_one_length_refuted : exists w m grow wild c, sound w /\ mem_new w = Value m /\
  burst_bits (interface_view m grow wild) false c = rw_bl w * dq_lines (interface_view m grow wild) /\ burst_cycles (interface_view m grow wild) false c <> burst_clocks w.
Proof. exact lengths_differ. Qed.
Print Assumptions C54_one_length_refuted.
