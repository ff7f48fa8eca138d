(* What a trace must keep to for the interface to take it: the yardstick for C34
   and C50. *)
From Coq Require Import NArith List Bool Arith.
From Verif Require Import Base Command CoreModel Bits WaveSpec PatternModel PatternTables InterfaceModel InterfaceSpec DramModel DramSpec.
Import ListNotations.
Local Open Scope N_scope.

(* The commands of a device: those every standard has, and those of one standard.
   LPDDR5 refreshes two banks at once only when it has sixteen. *)
Definition common (t : CmdType) : bool :=
  match t with
  | ACT | PRE | PREA | RD | RDA | WR | WRA | REFA | SREFEN | SREFEX | PDEA | PDXA | PDEP | PDXP | END_OF_SIMULATION => true
  | _ => false
  end.
Definition device_command (s : standard) (eight_banks : bool) (t : CmdType) : bool :=
  common t ||
  match s, t with
  | DDR5, PRESB | DDR5, REFSB | LPDDR4, REFB | LPDDR5, REFB | LPDDR5, DSMEN | LPDDR5, DSMEX | LPDDR6, REFDB => true
  | LPDDR5, REFP2B => negb eight_banks
  | _, _ => false
  end.
(* Those the interface carries: all but the self-refresh exit of DDR5, and besides
   them the NOP of DDR5 and LPDDR6. *)
Definition carried (s : standard) (eight_banks : bool) (t : CmdType) : bool :=
  match s, t with
  | DDR5, SREFEX => false
  | DDR5, NOP | LPDDR6, NOP => true
  | _, _ => device_command s eight_banks t
  end.
Definition eight (a : bank_arch) : bool := match a with M8B => true | _ => false end.

(* A burst that can be sent: it takes at least one cycle, comes with as many bytes
   as announced if it comes with data, fills the lines when its length only is
   counted, addresses a rank that exists (DDR4 keeps a record for each) and ends
   before time runs out.  LPDDR6 knows bursts of 24 and of 48 beats, of 256 and
   512 bits; of the latter the value of an undefined shift has to be given. *)
Record burst_fits (p : ifspec) (bus : bool) (c : Command) : Prop := {
  bf_cycle : 0 < burst_cycles p bus c;
  bf_bytes : cmd_data c = [] \/ cmd_sz_bits c <= 8 * N.of_nat (length (cmd_data c)) /\ Forall (fun v => v < 256) (cmd_data c);
  bf_whole : bus = false -> burst_bits p false c mod dq_lines p = 0;
  bf_rank : fi_std p = DDR4 -> (N.to_nat (cmd_rank c) < fi_ranks p)%nat;
  bf_six : fi_std p = LPDDR6 -> (burst_beats p bus c = 24 \/ burst_beats p bus c = 48) /\
             (cmd_sz_bits c = 0 \/ cmd_sz_bits c = 256 \/ cmd_sz_bits c = 512 /\ fi_wild p <> None);
  bf_time : cmd_ts c * fi_rate p + burst_beats p bus c < two64
}.
(* A command that can be sent: it is carried, LPDDR6 is told a bank that is a
   multiple of four, and its burst fits. *)
Record command_fits (p : ifspec) (bus : bool) (c : Command) : Prop := {
  cf_type : carried (fi_std p) (eight (fi_arch p)) (cmd_type c) = true;
  cf_bank : fi_std p = LPDDR6 -> cmd_type c <> END_OF_SIMULATION -> cmd_bank c mod 4 = 0;
  cf_burst : transfers (cmd_type c) <> None -> burst_fits p bus c;
  cf_time : command_ok p bus c
}.

(* The bursts of one direction, first beat and number of beats. *)
Definition bursts (p : ifspec) (bus read : bool) (cs : list Command) : list (N * N) :=
  flat_map (fun c => match transfers (cmd_type c) with
                     | Some r => if eqb r read then [(cmd_ts c * fi_rate p, burst_beats p bus c)] else []
                     | None => []
                     end) cs.
(* None starts before its predecessor is over. *)
Fixpoint no_overlap (from : N) (l : list (N * N)) : Prop :=
  match l with
  | [] => True
  | b :: r => from <= fst b /\ no_overlap (fst b + snd b) r
  end.
(* A trace the interface can take: every command can be sent, and neither the
   command bus nor one of the data buses is asked for two things at once. *)
Record trace_fits (p : ifspec) (bus : bool) (cs : list Command) : Prop := {
  tf_commands : Forall (command_fits p bus) cs;
  tf_ca : apart 0 (ca_drives p bus cs);
  tf_read : no_overlap 0 (bursts p bus true cs);
  tf_write : no_overlap 0 (bursts p bus false cs)
}.

(* A use of an object that is doCommand or a query. *)
Definition command_or_query (u : use) : Prop := match u with Both _ | Ask _ => True | CoreOnly _ | Iface _ => False end.
(* Those a core takes: the commands of the device, and the NOP of DDR5. *)
Definition core_command (s : standard) (eight_banks : bool) (t : CmdType) : bool :=
  device_command s eight_banks t || match s, t with DDR5, NOP => true | _, _ => false end.
(* What a command that has been taken must have been like.  LPDDR5 and LPDDR6 do
   not strobe a write while WCK is always on. *)
Definition strobed (p : ifspec) (read : bool) : bool := read || negb (two_clocks (fi_std p)) || negb (fi_wck_on p).
Record command_needs (p : ifspec) (bus : bool) (c : Command) : Prop := {
  cn_type : carried (fi_std p) (eight (fi_arch p)) (cmd_type c) = true;
  cn_bank : fi_std p = LPDDR6 -> cmd_type c <> END_OF_SIMULATION -> cmd_bank c mod 4 = 0;
  cn_cycle : forall read, transfers (cmd_type c) = Some read -> strobed p read = true -> 0 < burst_cycles p bus c
}.
(* The two views of a memory description that decide about commands agree. *)
Definition same_kind (p : dspec) : Prop :=
  fi_std (dp_if p) = ms_std (dp_core p) /\ eight (fi_arch (dp_if p)) = ms_m8b (dp_core p).
