(* C34: which commands the core and the interface of an object take.  C50: a trace
   that keeps to the rules is run to its end. *)
From Coq Require Import NArith QArith List Bool.
From Verif Require Import Base Command CoreModel Bits HistorySpec DeviceSpec ExampleCores BusModel WaveSpec StatsModel PatternModel PatternTables InterfaceModel InterfaceSpec InterfaceExamples
  ToggleModel DramModel DramSpec DramExamples ProgressSpec ProgressProofs ProgressTables ProgressQuery ProgressTop ProgressExamples.
Import ListNotations.
Local Open Scope N_scope.

(* ---- C34 ---- *)

(* A core takes no other commands than those of its device, and on DDR5 the NOP;
   others it refuses in every state. *)
Theorem C34_core_commands : forall p c s s', do_command p c s = Ok s' -> core_command (ms_std p) (ms_m8b p) (cmd_type c) = true.
Proof. exact core_takes. Qed.
Print Assumptions C34_core_commands.
Theorem C34_core_refuses : forall p c s, core_command (ms_std p) (ms_m8b p) (cmd_type c) = false ->
  do_command p c s = Asserts \/ exists s', do_command p c s = Throws s'.
Proof. exact core_refuses. Qed.
Print Assumptions C34_core_refuses.
Example C34_core_commands_case :
  (exists s, do_command (dp_core (ex_dspec LPDDR5)) (cmd_at 7 REFP2B 4 0 0 []) (core_new (dp_core (ex_dspec LPDDR5))) = Ok s) /\
  core_command LPDDR5 true REFP2B = false /\ core_command LPDDR6 false NOP = false /\ core_command DDR5 false NOP = true.
Proof. split; [vm_compute; eexists; reflexivity|repeat split]. Qed.

(* Whatever an interface has taken, in any sequence of calls, was a command it
   carries; on LPDDR6 it named a bank that is a multiple of four; and if it was a
   burst with a strobe it took at least a cycle. *)
Theorem C34_interface_commands : forall p sim i0, sizes_ok p -> (fi_std p = LPDDR6 -> fi_groups p = 4) -> iface_new p sim = Value i0 ->
  forall xs i, Forall (command_ok p (no_toggle sim)) (InterfaceSpec.commands xs) -> calls_run xs i0 = Value i ->
  Forall (command_needs p (no_toggle sim)) (InterfaceSpec.commands xs).
Proof. exact run_needs. Qed.
Print Assumptions C34_interface_commands.
Example C34_interface_commands_case : Forall (fun s => sizes_ok (spec_of_std s) /\ (fi_std (spec_of_std s) = LPDDR6 -> fi_groups (spec_of_std s) = 4) /\
  Forall (command_ok (spec_of_std s) true) (day_commands s) /\
  match iface_new (spec_of_std s) None with Value i => match calls_run (map Do (day_commands s)) i with Value _ => true | _ => false end | _ => false end = true) five.
Proof. exact days_taken. Qed.

(* Both tables together: the one command of a device that its interface refuses
   is the self-refresh exit of DDR5, the one command an interface takes that its
   core refuses is the NOP of LPDDR6. *)
Theorem C34_only_the_core : forall s e t, (core_command s e t = true /\ carried s e t = false) <-> (s = DDR5 /\ t = SREFEX).
Proof. exact halves_differ. Qed.
Print Assumptions C34_only_the_core.
Theorem C34_only_the_interface : forall s e t, (core_command s e t = false /\ carried s e t = true) <-> (s = LPDDR6 /\ t = NOP).
Proof. exact halves_differ_back. Qed.
Print Assumptions C34_only_the_interface.

(* On every other standard a command the core takes has a type the interface
   takes: a command that stops half way does so for its contents or its time. *)
Theorem C34_types_agree_partial : forall p c s s', ms_std (dp_core p) <> DDR5 -> same_kind p ->
  do_command (dp_core p) c s = Ok s' -> carried (fi_std (dp_if p)) (eight (fi_arch (dp_if p))) (cmd_type c) = true.
Proof. exact types_agree. Qed.
Print Assumptions C34_types_agree_partial.
Example C34_types_agree_case : Forall (fun s => same_kind (ex_dspec s)) five /\
  exists s, do_command (dp_core (ex_dspec LPDDR5)) (cmd_at 7 REFP2B 4 0 0 []) (core_new (dp_core (ex_dspec LPDDR5))) = Ok s.
Proof. split; [repeat constructor|vm_compute; eexists; reflexivity]. Qed.

(* As stated C34 is false: DDR5 throws at the exit from self-refresh, with the core
   already woken up, in a history every device accepts. *)
Theorem C34_half_way_refuted : exists p cs c t d0 d s,
  views_agree p /\ same_kind p /\ well_formed (dp_core p) /\ timely (dp_core p) (cs ++ [c]) t /\ legal_history (dp_core p) (cs ++ [c]) /\
  dram_new p = Value d0 /\ uses_run p (map Both cs) d0 = Returned d /\
  do_command (dp_core p) c (dr_core d) = Ok s /\ do_dram_command p c d = InterfaceStops Exception s /\ s <> dr_core d.
Proof. exact wake_half_way. Qed.
Print Assumptions C34_half_way_refuted.
(* On every standard a read without data stops half way while the wires are
   watched: the strobe would be started and stopped in the same cycle. *)
Theorem C34_bare_read_refuted : forall std, exists p cs c t d0 d s,
  ms_std (dp_core p) = std /\ views_agree p /\ same_kind p /\ well_formed (dp_core p) /\ timely (dp_core p) (cs ++ [c]) t /\ legal_history (dp_core p) (cs ++ [c]) /\
  dram_new p = Value d0 /\ uses_run p (map Both cs) d0 = Returned d /\
  do_command (dp_core p) c (dr_core d) = Ok s /\ do_dram_command p c d = InterfaceStops Assertion s /\ s <> dr_core d.
Proof. exact read_half_way. Qed.
Print Assumptions C34_bare_read_refuted.
(* LPDDR6 refuses banks that are no multiple of four. *)
Theorem C34_bank_refuted : exists p c t d0 s,
  ms_std (dp_core p) = LPDDR6 /\ views_agree p /\ same_kind p /\ well_formed (dp_core p) /\ timely (dp_core p) [c] t /\ legal_history (dp_core p) [c] /\
  cmd_bank c = 1 /\ dram_new p = Value d0 /\
  do_command (dp_core p) c (dr_core d0) = Ok s /\ do_dram_command p c d0 = InterfaceStops Assertion s /\ s <> dr_core d0.
Proof. exact bank_half_way. Qed.
Print Assumptions C34_bank_refuted.

(* ---- C50 ---- *)

(* The interface takes every trace that fits, and can be asked at any time that is
   not before the last command. *)
Theorem C50_interface_takes : forall p sim i0 cs, sizes_ok p -> (fi_std p = LPDDR6 -> fi_groups p = 4) -> iface_new p sim = Value i0 -> trace_fits p (no_toggle sim) cs ->
  exists i, calls_run (map Do cs) i0 = Value i.
Proof. exact interface_takes. Qed.
Print Assumptions C50_interface_takes.
Theorem C50_interface_answers : forall p sim i0 cs i t st, sizes_ok p -> (fi_std p = LPDDR6 -> fi_groups p = 4) -> iface_new p sim = Value i0 -> trace_fits p (no_toggle sim) cs ->
  calls_run (map Do cs) i0 = Value i -> Forall (fun c => cmd_ts c <= t) cs -> t * ca_beats (fi_std p) + 64 < two64 -> t * fi_rate p < two64 ->
  exists st', if_window i t st = Value st'.
Proof. exact window_goes. Qed.
Print Assumptions C50_interface_answers.
Example C50_interface_takes_case : Forall (fun s => trace_fits (spec_of_std s) true (day_commands s) /\ trace_fits (spec_of_std s) false (blind_commands s) /\
  Forall (fun c => cmd_ts c <= 1000) (day_commands s) /\
  match iface_new (spec_of_std s) None, iface_new (spec_of_std s) toggle_sim with Value _, Value _ => true | _, _ => false end = true) five.
Proof. exact interface_case. Qed.

(* An object given a history that breaks no rule of the device and that fits the
   buses runs it to the end, with any queries in between. *)
Theorem C50_object_runs : forall p us d0 t, dram_new p = Value d0 -> Forall command_or_query us ->
  nondecreasing 0 (map op_time (core_ops us)) -> final_time 0 (map op_time (core_ops us)) <= t -> t * ca_beats (fi_std (dp_if p)) + 64 < two64 -> t * fi_rate (dp_if p) < two64 ->
  sizes_ok (dp_if p) -> (fi_std (dp_if p) = LPDDR6 -> fi_groups (dp_if p) = 4) ->
  let cs := HistorySpec.commands (core_ops us) in
  well_formed (dp_core p) -> timely (dp_core p) cs t -> legal_history (dp_core p) cs -> trace_fits (dp_if p) (no_toggle (dp_sim p)) cs ->
  exists d, uses_run p us d0 = Returned d.
Proof. exact object_goes. Qed.
Print Assumptions C50_object_runs.
Example C50_object_runs_case : Forall (fun s =>
  (Forall command_or_query (full_day s) /\ nondecreasing 0 (map op_time (core_ops (full_day s))) /\ final_time 0 (map op_time (core_ops (full_day s))) <= 1000) /\
  (well_formed (dp_core (ex_dspec s)) /\ timely (dp_core (ex_dspec s)) (day_commands s) 1000 /\ legal_history (dp_core (ex_dspec s)) (day_commands s)) /\
  trace_fits (dp_if (ex_dspec s)) true (day_commands s) /\
  (timely (dp_core (ex_dspec s)) (blind_commands s) 1000 /\ legal_history (dp_core (ex_dspec s)) (blind_commands s)) /\
  trace_fits (dp_if (ex_dspec s)) false (blind_commands s) /\
  returns (ex_dspec s) (full_day s) = true /\ returns (with_sim (ex_dspec s) toggle_sim) (blind_day s) = true) five.
Proof. exact object_case. Qed.
