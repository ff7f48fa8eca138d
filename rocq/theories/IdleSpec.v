(* What a cycle of waiting costs on the wires: vocabulary for C75. *)
From Coq Require Import NArith QArith List Bool.
From Verif Require Import Base Command CoreModel Bits WaveSpec ToggleModel StatsModel StatsSpec EnergyModel EnergySpec IfEnergyModel IfEnergySpec InterfaceModel InterfaceSpec
  WireSpec ChargeSpec MemSpecModel MemSpecSpec WholeSpec.
Import ListNotations.
Local Open Scope N_scope.

(* n beats of lines that stay at one level, and n periods of lines that alternate. *)
Definition steady (high : bool) (n : N) : bus_stats := if high then mkStats n 0 0 0 0 else mkStats 0 n 0 0 0.
Definition alternating (n : N) : bus_stats := mkStats n n (2 * n) n n.

(* The level at which nobody drives the data lines: with toggling rates it is the
   one the configuration names. *)
Definition dq_level (p : ifspec) (sim : option toggle_def) (read : bool) : bool :=
  match sim with
  | None => dq_rests_high (fi_std p)
  | Some d => match (if read then td_read_idle d else td_write_idle d) with TogH => true | _ => false end
  end.
(* Rising edges of the two lines of a clock in one cycle. *)
Definition edges (p : ifspec) (g : group) : N :=
  match g with CK => 2 | WCK => if fi_wck_on p then 2 * (fi_rate p / fi_wck p / 2) else 0 | _ => 0 end.
(* Lines times beats of a cycle, for the lines that carry words. *)
Definition places (p : ifspec) (g : group) : N :=
  match g with CA => N.of_nat (ca_pins (fi_std p)) * ca_beats (fi_std p) | RDQ | WDQ => dq_lines p * fi_rate p | _ => 0 end.
Definition rest_level (p : ifspec) (sim : option toggle_def) (g : group) : bool :=
  match g with CA => ca_rests_high (fi_std p) | RDQ => dq_level p sim true | WDQ => dq_level p sim false | _ => false end.

(* What n cycles of waiting add to the counts of a group. *)
Definition idle_counts (p : ifspec) (sim : option toggle_def) (n : N) (g : group) : bus_stats :=
  match g with
  | CK | WCK => alternating (n * edges p g)
  | CA | RDQ | WDQ => steady (rest_level p sim g) (n * places p g)
  | _ => stats0
  end.

(* What a cycle of waiting costs.  A clock is at the burning level half the time.
   Lines that carry words burn only if they are left at the burning level. *)
Definition burns (s : standard) : bool := match s with DDR4 | DDR5 => false | _ => true end.
Definition wasted (p : ifspec) (sim : option toggle_def) (g : group) : N :=
  edges p g + (if eqb (rest_level p sim g) (burns (fi_std p)) then places p g else 0).
Definition idle_static (p : ifspec) (e : ispec) (sim : option toggle_def) (g : group) : Q :=
  if ln_term (impedance e g) then (is_vddq e * is_vddq e / ln_R (impedance e g) * (qn (wasted p sim g) * beat e g))%Q else 0%Q.
Definition idle_dynamic (p : ifspec) (e : ispec) (g : group) : Q := (ln_E (impedance e g) * qn (edges p g))%Q.
Definition idle_cost (p : ifspec) (e : ispec) (sim : option toggle_def) : Q :=
  qsum (fun g => idle_static p e sim g + idle_dynamic p e g)%Q (groups (fi_std p)).

(* A clock: the only lines that move by themselves. *)
Definition is_clock (g : group) : bool := match g with CK | WCK => true | _ => false end.

(* The marker that ends a trace. *)
Definition end_at (c : Command) (t : N) : Prop := cmd_type c = END_OF_SIMULATION /\ cmd_ts c = t.
