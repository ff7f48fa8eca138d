(* When the wires of an interface are quiet after a trace: the yardstick for C61. *)
From Coq Require Import NArith QArith List Bool.
From Verif Require Import Base Command CoreModel Bits WaveSpec HistorySpec DeviceSpec EnergySpec InterfaceModel InterfaceSpec DramModel DramSpec ProgressSpec ChargeSpec MemSpecModel MemSpecSpec WholeSpec.
Import ListNotations.
Local Open Scope N_scope.

(* At the end of T cycles the wires have been at rest for at least one beat: what
   a command puts on the command bus, and its burst on the data lines, ends before
   the last beat. *)
Definition command_over (p : ifspec) (bus : bool) (T : N) (c : Command) : Prop :=
  (silent (fi_std p) (cmd_type c) = false -> cmd_ts c * ca_beats (fi_std p) + N.of_nat (length (command_words p bus c)) < T * ca_beats (fi_std p)) /\
  (transfers (cmd_type c) <> None -> cmd_ts c * fi_rate p + burst_beats p bus c < T * fi_rate p).
Definition quiet (p : ifspec) (bus : bool) (cs : list Command) (T : N) : Prop := Forall (fun c => cmd_ts c <= T /\ command_over p bus T c) cs.

(* A command that ends before 64 bits of time run out. *)
Definition in_time (p : ifspec) (bus : bool) (c : Command) : Prop :=
  command_ok p bus c /\ (transfers (cmd_type c) <> None -> cmd_ts c * fi_rate p + burst_beats p bus c < two64).

(* Every count of a is at least that of b, and at most n more, 2 n more for the
   changes in either direction together. *)
Definition exceeds (n : N) (a b : bus_stats) : Prop :=
  (ones b <= ones a <= ones b + n) /\ (zeroes b <= zeroes a <= zeroes b + n) /\ (changes b <= changes a <= changes b + 2 * n) /\
  (o2z b <= o2z a <= o2z b + n) /\ (z2o b <= z2o a <= z2o b + n).

(* ---- what is asked of a trace and of a memory, as in C53 ---- *)

Definition ends (cs : list Command) : N := final_time 0 (map cmd_ts cs).
(* The trace keeps to the rules of the device and of the buses up to its end. *)
Record soundly (p : dspec) (cs : list Command) : Prop := {
  so_timely : timely (dp_core p) cs (ends cs);
  so_legal : legal_history (dp_core p) cs;
  so_fits : trace_fits (dp_if p) (no_toggle (dp_sim p)) cs;
  so_calm : calm (dp_if p) (dp_ie p) (dp_sim p) cs (ends cs)
}.
(* All parts of the object are given the same memory, and one that makes sense. *)
Record capable (p : dspec) : Prop := {
  cp_views : views_agree p;
  cp_same : same_memory (dp_core p) (dp_ce p);
  cp_new : exists d0, dram_new p = Value d0;
  cp_core : DeviceSpec.well_formed (dp_core p);
  cp_energy : EnergySpec.well_formed (dp_ce p);
  cp_sim : match dp_sim p with Some d => good_toggle d | None => True end;
  cp_sizes : InterfaceSpec.sizes_ok (dp_if p);
  cp_groups : fi_std (dp_if p) = LPDDR6 -> fi_groups (dp_if p) = 4
}.
(* A trace of n cycles does not make a count exceed 64 bits. *)
Definition countable (p : ifspec) (n : N) : Prop := n * (fi_rate p + dqs_rate p + 2) * (dq_lines p + 32) + 64 < two64.
