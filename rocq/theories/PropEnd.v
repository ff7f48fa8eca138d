(* C73: how a trace ends. *)
From Coq Require Import NArith QArith List Bool Ascii.
From Verif Require Import Base Command CoreModel Bits HistorySpec DeviceSpec ExampleCores BusModel WaveSpec StatsModel PatternModel PatternTables InterfaceModel InterfaceSpec InterfaceExamples
  ToggleModel DramModel DramSpec DramExamples ProgressSpec ProgressProofs ProgressExamples RejectSpec TakenSpec TakenExamples CsvModel CliModel CliSpec CliExamples EndSpec EndProofs EndTop EndExamples.
Import ListNotations.
Local Open Scope N_scope.

(* After commands an interface takes, the next is taken if and only if the trace with
   it is allowed, and otherwise stops at an assertion, save the two commands for which
   there is no word: these throw. *)
Theorem C73_interface : forall p sim i0 cs c, InterfaceSpec.sizes_ok p -> (fi_std p = LPDDR6 -> fi_groups p = 4) -> iface_new p sim = Value i0 -> Forall (dressed p (no_toggle sim)) (cs ++ [c]) ->
  trace_allowed p (no_toggle sim) cs ->
  exists i, calls_run (map Do cs) i0 = Value i /\
    ((exists i', if_command c i = Value i') /\ trace_allowed p (no_toggle sim) (cs ++ [c]) \/
     if_command c i = Fails (interface_says p c) /\ ~ trace_allowed p (no_toggle sim) (cs ++ [c])).
Proof. exact answer_known. Qed.
Print Assumptions C73_interface.
Example C73_interface_case : (Forall (dressed (spec_of_std DDR5) true) (sleeper ++ [waker]) /\ trace_allowed (spec_of_std DDR5) true sleeper /\ interface_says (spec_of_std DDR5) waker = Exception) /\
  Forall (fun s => Forall (dressed (spec_of_std s) true) (crowd_first s ++ [crowd_second s]) /\ trace_allowed (spec_of_std s) true (crowd_first s) /\ interface_says (spec_of_std s) (crowd_second s) = Assertion) five.
Proof.
  split; [split; [exact sleep_dressed|split; [exact (proj2 sleeper_taken)|reflexivity]]|].
  repeat (constructor; [split; [apply crowded_dressed|split; [apply crowd_allowed|reflexivity]]|]); constructor.
Qed.

(* The object runs a trace to its end if and only if the core and the interface take
   every command of it, *)
Theorem C73_runs : forall p d0, dram_new p = Value d0 -> well_formed (dp_core p) -> InterfaceSpec.sizes_ok (dp_if p) -> (fi_std (dp_if p) = LPDDR6 -> fi_groups (dp_if p) = 4) ->
  forall cs, Forall (dressed (dp_if p) (no_toggle (dp_sim p))) cs -> predictable (dp_core p) cs ->
  ((exists d, run_commands p cs d0 = Ran d) <-> all_taken p (no_toggle (dp_sim p)) cs).
Proof. exact runs_exactly. Qed.
Print Assumptions C73_runs.
Example C73_runs_case : Forall (fun s => Forall (dressed (spec_of_std s) true) (crowded s) /\ predictable (dp_core (ex_dspec s)) (crowded s) /\ Forall (dressed (spec_of_std s) true) (day_commands s) /\ predictable (dp_core (ex_dspec s)) (day_commands s)) five.
Proof. repeat (constructor; [split; [apply crowded_dressed|split; [apply crowd_predictable|split; [apply day_dressed|apply day_predictable]]]|]); constructor. Qed.

(* and otherwise there is a first command that is not taken, *)
Theorem C73_first : forall p d0, dram_new p = Value d0 -> well_formed (dp_core p) -> InterfaceSpec.sizes_ok (dp_if p) -> (fi_std (dp_if p) = LPDDR6 -> fi_groups (dp_if p) = 4) ->
  forall cs, Forall (dressed (dp_if p) (no_toggle (dp_sim p))) cs -> predictable (dp_core p) cs ->
  all_taken p (no_toggle (dp_sim p)) cs \/ exists pre c post a, cs = pre ++ c :: post /\ refused_first p (no_toggle (dp_sim p)) pre c a.
Proof. exact taken_or_refused. Qed.
Print Assumptions C73_first.
Example C73_first_case : Forall (fun s => refused_first (ex_dspec s) true (crowd_first s) (crowd_second s) (ByInterface Assertion) /\ refused_first (ex_dspec s) true (crowd_first s) (lost s) (ByCore Asserted)) five.
Proof. repeat (constructor; [split; [apply crowd_refused|apply lost_refused]|]); constructor. Qed.

(* and this one alone decides how the run ends, whatever follows it. *)
Theorem C73_stops : forall p d0, dram_new p = Value d0 -> well_formed (dp_core p) -> InterfaceSpec.sizes_ok (dp_if p) -> (fi_std (dp_if p) = LPDDR6 -> fi_groups (dp_if p) = 4) ->
  forall pre c post a, Forall (dressed (dp_if p) (no_toggle (dp_sim p))) (pre ++ c :: post) -> predictable (dp_core p) (pre ++ c :: post) ->
  refused_first p (no_toggle (dp_sim p)) pre c a -> run_commands p (pre ++ c :: post) d0 = run_stops a.
Proof. exact runs_until. Qed.
Print Assumptions C73_stops.
Example C73_stops_case : (refused_first (ex_dspec DDR5) true sleeper waker (ByInterface Exception) /\ Forall (dressed (spec_of_std DDR5) true) (sleeper ++ [waker]) /\ predictable (dp_core (ex_dspec DDR5)) (sleeper ++ [waker])) /\
  Forall (fun s => refused_first (ex_dspec s) true (crowd_first s) (lost s) (ByCore Asserted) /\ Forall (dressed (spec_of_std s) true) (crowd_first s ++ [lost s])) five.
Proof.
  split; [split; [exact waker_refused|split; [exact sleep_dressed|exact sleep_predictable]]|]. repeat (constructor; [split; [apply lost_refused|apply lost_dressed]|]); constructor.
Qed.

(* The program prints its results if and only if every command is taken, *)
Theorem C73_prints : forall p d0, dram_new p = Value d0 -> well_formed (dp_core p) -> InterfaceSpec.sizes_ok (dp_if p) -> (fi_std (dp_if p) = LPDDR6 -> fi_groups (dp_if p) = 4) ->
  forall text cs, parse_command_list text = Value (Some cs) ->
  views_agree p -> nondecreasing 0 (map cmd_ts cs) -> Forall (dressed (dp_if p) (no_toggle (dp_sim p))) cs -> predictable (dp_core p) cs -> final_time 0 (map cmd_ts cs) * fi_rate (dp_if p) < two64 ->
  ((exists a b q, program p text = Printed a b q) <-> all_taken p (no_toggle (dp_sim p)) cs).
Proof. exact program_prints. Qed.
Print Assumptions C73_prints.
Example C73_prints_case : parse_command_list good_text = Value (Some (ex_commands ++ [ex_end])) /\
  Forall (fun s => Forall (dressed (spec_of_std s) true) (ex_commands ++ [ex_end])) [DDR4; DDR5] /\ (forall s, predictable (dp_core (ex_dspec s)) (ex_commands ++ [ex_end])) /\
  Forall (fun s => all_taken (ex_dspec s) true (ex_commands ++ [ex_end])) [DDR4; DDR5] /\ nondecreasing 0 (map cmd_ts (ex_commands ++ [ex_end])).
Proof. split; [exact good_read|]. split; [exact good_dressed|]. split; [exact good_predictable|]. split; [exact good_taken|exact (proj1 ex_timed)]. Qed.

(* and otherwise ends as the first command that is not taken has it: *)
Theorem C73_program : forall p d0, dram_new p = Value d0 -> well_formed (dp_core p) -> InterfaceSpec.sizes_ok (dp_if p) -> (fi_std (dp_if p) = LPDDR6 -> fi_groups (dp_if p) = 4) ->
  forall text cs, parse_command_list text = Value (Some cs) ->
  forall pre c post a, cs = pre ++ c :: post -> Forall (dressed (dp_if p) (no_toggle (dp_sim p))) cs -> predictable (dp_core p) cs -> refused_first p (no_toggle (dp_sim p)) pre c a ->
  program p text = program_stops a.
Proof. exact program_stopped. Qed.
Print Assumptions C73_program.
Example C73_program_case : parse_command_list sleep_text = Value (Some (sleeper ++ [waker])) /\ refused_first (ex_dspec DDR5) true sleeper waker (ByInterface Exception) /\ program_stops (ByInterface Exception) = Failed.
Proof. split; [exact sleep_read|]. split; [exact waker_refused|reflexivity]. Qed.

(* there are four ways to end, and two of them only for few commands. *)
Theorem C73_ways : forall p d0, dram_new p = Value d0 -> well_formed (dp_core p) -> InterfaceSpec.sizes_ok (dp_if p) -> (fi_std (dp_if p) = LPDDR6 -> fi_groups (dp_if p) = 4) ->
  forall text cs, parse_command_list text = Value (Some cs) ->
  views_agree p -> nondecreasing 0 (map cmd_ts cs) -> Forall (dressed (dp_if p) (no_toggle (dp_sim p))) cs -> predictable (dp_core p) cs -> final_time 0 (map cmd_ts cs) * fi_rate (dp_if p) < two64 ->
  (exists a b q, program p text = Printed a b q) \/ program p text = Died Assertion \/
  program p text = Failed /\ (exists c, In c cs /\ wordless p c) \/
  program p text = Died UB /\ (exists c, In c cs /\ partnerless p c).
Proof. exact program_ends. Qed.
Print Assumptions C73_ways.
Example C73_ways_case : Forall (fun s => (exists d0, dram_new (ex_dspec s) = Value d0) /\ views_agree (ex_dspec s) /\ well_formed (dp_core (ex_dspec s)) /\ InterfaceSpec.sizes_ok (dp_if (ex_dspec s))) five /\ wordless (ex_dspec DDR5) waker.
Proof.
  split; [|left; split; reflexivity].
  repeat (constructor; [split; [apply new_there|split; [apply ex_views|split; [apply day_legal|vm_compute; repeat split; discriminate]]]|]); constructor.
Qed.
