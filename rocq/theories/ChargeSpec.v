(* The charge a rank draws over a history, described on the reference machine of
   DeviceSpec.v: in every clock cycle a standby current that depends on the state
   of the rank, and on top of it a fixed amount for every command.  Statistics
   and energy formulas do not occur here; EnergyModel gives only the records of
   data sheet values. *)
From Coq Require Import NArith QArith List Bool.
From Verif Require Import Base Command CoreModel HistorySpec DeviceSpec EnergyModel EnergySpec.
Import ListNotations.
Local Open Scope Q_scope.

Definition busy_banks (d : device) : nat := length (filter busy (dv_banks d)).

(* A bank holds an open row, possibly one that auto-precharge will close. *)
Definition row_open (b : sbank) : bool := match sb_state b with Open | Closing _ => true | _ => false end.
Definition open_rows (d : device) : nat := length (filter row_open (dv_banks d)).

(* Current of one device of the rank while the rank is in state d.  I n is the
   current with n banks active. *)
Definition standby (w : power) (I : Q -> Q) (d : device) : Q :=
  match dv_mode d with
  | Up => match busy_banks d with O => pw_i2n w | n => I (qnat n) end
  | ActPd => pw_i3p w
  | PrePd => pw_i2p w
  | SelfRef => pw_i6 w
  | DeepSleep => pw_i6ds w
  end.

(* Sum over all cycles before t of a quantity that depends on the state. *)
Definition over_cycles (p : memspec) (r : nat) (cs : list Command) (t : N) (f : device -> Q) : Q :=
  qsum (fun n => match device_at p r cs (N.of_nat n) with Some d => f d | None => 0 end) (seq 0 (N.to_nat t)).

(* Times in seconds. *)
Definition cycles_time (e : espec) (n : N) : Q := qn n * es_tCK e.
Definition read_time (e : espec) : Q :=
  match es_std e with
  | DDR4 | DDR5 => qn (es_bl e) / qn (es_dr e) * es_tCK e
  | LPDDR4 => qn (es_bl e / es_dr e) * es_tCK e
  | LPDDR5 | LPDDR6 => qn (es_bl e / es_dr e) * es_tWCK e
  end.
(* Whole clock cycles also for DDR4 and DDR5. *)
Definition write_time (e : espec) : Q :=
  match es_std e with
  | DDR4 | DDR5 | LPDDR4 => qn (es_bl e / es_dr e) * es_tCK e
  | LPDDR5 | LPDDR6 => qn (es_bl e / es_dr e) * es_tWCK e
  end.

(* What a command draws beyond the standby currents.  An activation stands for
   the whole row cycle, opening and closing: the data sheet's current i0 runs for
   tRAS + tRP, of which the standby currents with one bank and with no bank active
   are already there.  A refresh of one or two banks is measured once every
   tREFI/8, with no bank active in between. *)
Definition command_charge (e : espec) (w : power) (I : Q -> Q) (c : Command) : Q :=
  let time := cycles_time e in
  let small n := pw_i5s w * (time (es_tREFI e) / 8) - pw_i2n w * (time (es_tREFI e) / 8 - time (es_tRFCs e)) - I n * time (es_tRFCs e) in
  match cmd_type c with
  | ACT => pw_i0 w * (time (es_tRAS e) + time (es_tRP e)) - I 1 * time (es_tRAS e) - pw_i2n w * time (es_tRP e)
  | RD | RDA => (pw_i4r w - I (qnat (banks_in_burst e))) * read_time e
  | WR | WRA => (pw_i4w w - I (qnat (banks_in_burst e))) * write_time e
  | REFA | SREFEN => (pw_i5 w - I (qnat (es_banks e))) * time (es_tRFC e)
  | REFSB => (pw_i5s w - I (qnat (es_groups e))) * time (es_tRFCs e)
  | REFB => small 1
  | REFP2B | REFDB => small 2
  | _ => 0
  end.

(* The closing part of the row cycle of one row. *)
Definition closing_charge (e : espec) (w : power) : Q := (pw_ibeta w - pw_i2n w) * cycles_time e (es_tRP e).

(* The charge one device of rank r draws from one voltage domain before time t:
   standby, commands, less the closing of the rows that are still open. *)
Definition charge (p : memspec) (e : espec) (w : power) (I : Q -> Q) (r : nat) (cs : list Command) (t : N) : Q :=
  over_cycles p r cs t (standby w I) * es_tCK e
  + qsum (command_charge e w I) (filter (to_rank r) cs)
  - match device_at p r cs t with Some d => qnat (open_rows d) | None => 0 end * closing_charge e w.

(* The description the core works with and the one the energy is computed from
   are of the same memory. *)
Record same_memory (p : memspec) (e : espec) : Prop := {
  sm_std : es_std e = ms_std p;
  sm_ranks : es_ranks e = ms_ranks p;
  sm_banks : es_banks e = ms_banks p;
  sm_groups : ms_std p = DDR5 -> es_groups e = ms_groups p
}.

(* The background currents of every voltage domain. *)
Definition backgrounds (e : espec) (I : power -> Q -> Q) : Prop := forall w, In w (es_domains e) -> background e w (I w).
