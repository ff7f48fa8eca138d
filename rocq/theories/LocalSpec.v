(* Vocabulary for what single commands change: commands that look alike to the
   core, and commands that leave the state of the memory alone. *)
From Coq Require Import NArith List Bool.
From Verif Require Import Base Command CoreModel HistorySpec DeviceSpec.
Import ListNotations.
Local Open Scope N_scope.

(* Same time, kind, rank and banks.  Row, column, bank group, data and the length
   of the data are left open. *)
Definition alike (c c' : Command) : Prop :=
  cmd_ts c = cmd_ts c' /\ cmd_type c = cmd_type c' /\ cmd_rank c = cmd_rank c' /\ cmd_bank c = cmd_bank c' /\ cmd_dbank c = cmd_dbank c'.

(* Reads and writes without auto-precharge. *)
Definition access (c : Command) : Prop := cmd_type c = RD \/ cmd_type c = WR.

(* The row of the addressed bank is open and the rank is up when the command c is
   given after the commands a. *)
Definition row_ready (p : memspec) (a : list Command) (c : Command) : Prop :=
  exists d b, device_at p (N.to_nat (cmd_rank c)) a (cmd_ts c) = Some d /\ dv_mode d = Up /\ dv_pend d = None /\
    nth_error (dv_banks d) (N.to_nat (cmd_bank c)) = Some b /\ sb_state b = Open.

(* Precharges of banks that are all closed already. *)
Definition nothing_to_close (p : memspec) (a : list Command) (c : Command) : Prop :=
  (cmd_type c = PRE \/ cmd_type c = PREA \/ cmd_type c = PRESB) /\
  forall d, device_at p (N.to_nat (cmd_rank c)) a (cmd_ts c) = Some d ->
    forall i b, nth_error (dv_banks d) i = Some b -> footprint p c i = true -> sb_state b = Closed.

(* Commands after which a memory is in the state it was in before. *)
Definition silent (p : memspec) (a : list Command) (c : Command) : Prop :=
  access c \/ nothing_to_close p a c \/ cmd_type c = NOP \/ cmd_type c = END_OF_SIMULATION.
(* The command is one of those that counter k counts. *)
Definition one_for (k : ckind) (c : Command) : bool := match k, cmd_type c with K_reads, RD => true | K_writes, WR => true | _, _ => false end.

(* The two traces give every rank the same commands in the same order. *)
Definition same_for_ranks (p : memspec) (cs cs' : list Command) : Prop :=
  forall r, (r < ms_ranks p)%nat -> filter (to_rank r) cs = filter (to_rank r) cs'.
