(* C69: exactly which traces an interface takes. *)
From Coq Require Import NArith QArith List Bool.
From Verif Require Import Base Command CoreModel Bits HistorySpec DeviceSpec ExampleCores BusModel WaveSpec StatsModel PatternModel PatternTables InterfaceModel InterfaceSpec InterfaceExamples
  ToggleModel DramModel DramSpec DramExamples ProgressSpec ProgressProofs ProgressExamples TakenSpec TakenProofs TakenObject TakenExamples StatsTime.
Import ListNotations.
Local Open Scope N_scope.

(* A new interface given commands whose contents make sense runs them to the end
   if and only if every command is one it carries, to a bank and a rank that exist
   for it, with bursts of a cycle or more, and nothing is sent before its
   predecessor on the same wires is over.  Both while the wires are watched and
   while their activity is estimated. *)
Theorem C69_interface : forall p sim i0 cs, InterfaceSpec.sizes_ok p -> (fi_std p = LPDDR6 -> fi_groups p = 4) -> iface_new p sim = Value i0 -> Forall (dressed p (no_toggle sim)) cs ->
  ((exists i, calls_run (map Do cs) i0 = Value i) <-> trace_allowed p (no_toggle sim) cs).
Proof. exact taken_exactly. Qed.
Print Assumptions C69_interface.
Example C69_interface_case : Forall (fun s => Forall (dressed (spec_of_std s) true) (day_commands s) /\ Forall (dressed (spec_of_std s) false) (blind_commands s)) five.
Proof. repeat (constructor; [split; [apply day_dressed|apply blind_dressed]|]); constructor. Qed.
Example C69_refused_case : Forall (fun s => Forall (dressed (spec_of_std s) true) (crowded s) /\ refused s (crowded s) = true) five.
Proof. repeat (constructor; [split; [apply crowded_dressed|vm_compute; reflexivity]|]); constructor. Qed.

(* The same for the whole object, given a history that breaks no rule of the
   device, with queries anywhere in between. *)
Theorem C69_object : forall p us d0 t, dram_new p = Value d0 -> Forall command_or_query us ->
  nondecreasing 0 (map op_time (core_ops us)) -> final_time 0 (map op_time (core_ops us)) <= t -> t * ca_beats (fi_std (dp_if p)) + 64 < two64 -> t * fi_rate (dp_if p) < two64 ->
  InterfaceSpec.sizes_ok (dp_if p) -> (fi_std (dp_if p) = LPDDR6 -> fi_groups (dp_if p) = 4) ->
  let cs := HistorySpec.commands (core_ops us) in
  well_formed (dp_core p) -> timely (dp_core p) cs t -> legal_history (dp_core p) cs -> Forall (dressed (dp_if p) (no_toggle (dp_sim p))) cs ->
  ((exists d, uses_run p us d0 = Returned d) <-> trace_allowed (dp_if p) (no_toggle (dp_sim p)) cs).
Proof. exact object_exactly. Qed.
Print Assumptions C69_object.
Example C69_object_case : Forall (fun s =>
  (Forall command_or_query (full_day s) /\ nondecreasing 0 (map op_time (core_ops (full_day s))) /\ final_time 0 (map op_time (core_ops (full_day s))) <= 1000) /\
  (well_formed (dp_core (ex_dspec s)) /\ timely (dp_core (ex_dspec s)) (day_commands s) 1000 /\ legal_history (dp_core (ex_dspec s)) (day_commands s)) /\
  Forall (dressed (spec_of_std s) true) (day_commands s)) five.
Proof. repeat (constructor; [split; [apply day_uses|split; [apply day_legal|apply day_dressed]]|]); constructor. Qed.

(* Without data the data bus does not notice: two reads that announce 256 bits,
   bring none and overlap are taken. *)
Theorem C69_no_data_refuted : exists i0 i, iface_new (spec_of_std DDR5) None = Value i0 /\ calls_run (map Do [announced 20; announced 22]) i0 = Value i /\
  ~ no_overlap 0 (bursts (spec_of_std DDR5) true true [announced 20; announced 22]).
Proof. exact overlap_unseen. Qed.
Print Assumptions C69_no_data_refuted.

(* Whatever the interface has done before, parity checking can be switched off, and
   switched on exactly if the data clock always runs. *)
Theorem C69_parity : forall p sim i0 xs i e, iface_new p sim = Value i0 -> calls_run xs i0 = Value i ->
  ((exists i', call_do (SetParity e) i = Value i') <-> (e = true -> fi_wck_on p = true)).
Proof. exact parity_allowed. Qed.
Print Assumptions C69_parity.
Example C69_parity_case : fi_wck_on (spec_of_std LPDDR6) = false /\
  match iface_new (spec_of_std LPDDR6) None with
  | Value i0 => calls_run (map Do (day_commands LPDDR6)) i0 <> Fails Assertion /\ call_do (SetParity true) i0 = Fails Assertion
  | Fails _ => False
  end.
Proof. vm_compute. repeat split; discriminate. Qed.
