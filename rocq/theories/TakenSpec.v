(* Which traces an interface takes, exactly: the yardstick for C69. *)
From Coq Require Import NArith List Bool.
From Verif Require Import Base Command CoreModel Bits WaveSpec PatternModel InterfaceModel InterfaceSpec ProgressSpec.
Import ListNotations.
Local Open Scope N_scope.

(* A command whose contents make sense by themselves: times do not run out, and a
   burst comes with its data, as many bytes as announced, while the wires are
   watched.  On LPDDR6 it is one of the two sizes there are.  Nothing is asked
   about the kind of command, the rank, or when it is sent. *)
Record dressed (p : ifspec) (bus : bool) (c : Command) : Prop := {
  dr_time : command_ok p bus c;
  dr_end : transfers (cmd_type c) <> None -> cmd_ts c * fi_rate p + burst_beats p bus c < two64;
  dr_data : transfers (cmd_type c) <> None -> bus = true -> cmd_data c <> [];
  dr_bytes : transfers (cmd_type c) <> None -> cmd_data c = [] \/ cmd_sz_bits c <= 8 * N.of_nat (length (cmd_data c)) /\ Forall (fun v => v < 256) (cmd_data c);
  dr_cycle : forall read, transfers (cmd_type c) = Some read -> strobed p read = false -> 0 < burst_cycles p bus c;
  dr_six : transfers (cmd_type c) <> None -> fi_std p = LPDDR6 -> (burst_beats p bus c = 24 \/ burst_beats p bus c = 48) /\
             (cmd_sz_bits c = 0 \/ cmd_sz_bits c = 256 \/ cmd_sz_bits c = 512 /\ fi_wild p <> None)
}.

(* What decides: the kind of command is carried; on LPDDR6 the bank is a multiple
   of four; on DDR4 the rank of a burst exists; a burst takes a cycle at least and
   fills all lines when only its length is counted; *)
Record command_allowed (p : ifspec) (bus : bool) (c : Command) : Prop := {
  ca_type : carried (fi_std p) (eight (fi_arch p)) (cmd_type c) = true;
  ca_bank : fi_std p = LPDDR6 -> cmd_type c <> END_OF_SIMULATION -> cmd_bank c mod 4 = 0;
  ca_cycle : transfers (cmd_type c) <> None -> 0 < burst_cycles p bus c;
  ca_whole : transfers (cmd_type c) <> None -> bus = false -> burst_bits p false c mod dq_lines p = 0;
  ca_rank : transfers (cmd_type c) <> None -> fi_std p = DDR4 -> (N.to_nat (cmd_rank c) < fi_ranks p)%nat
}.
(* and nothing is sent before its predecessor on the same wires is over. *)
Record trace_allowed (p : ifspec) (bus : bool) (cs : list Command) : Prop := {
  ta_commands : Forall (command_allowed p bus) cs;
  ta_ca : apart 0 (ca_drives p bus cs);
  ta_read : no_overlap 0 (bursts p bus true cs);
  ta_write : no_overlap 0 (bursts p bus false cs)
}.
