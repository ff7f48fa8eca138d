(* What a run of the program should print, told from the description of the memory
   and the trace alone: the yardstick for C53. *)
From Coq Require Import NArith QArith List Bool Arith.
From Verif Require Import Base Command CoreModel Bits WaveSpec BitFacts ClockProofs ToggleModel ToggleProofs StatsModel StatsSpec EnergyModel EnergySpec IfEnergyModel IfEnergySpec
  InterfaceModel InterfaceSpec WireSpec AmbleSpec ChargeSpec.
Import ListNotations.
Local Open Scope N_scope.

(* ---- the wires ---- *)

(* What the data lines of one direction carry in t cycles: the words of the bursts,
   or the shares of the driven beats that the toggling rates say. *)
Definition high (i : toggle_idle) : bool := match i with TogH => true | _ => false end.
Definition data_counts (p : ifspec) (sim : option toggle_def) (cs : list Command) (t : N) (read : bool) : bus_stats :=
  let n := t * fi_rate p in
  match sim with
  | None => wave_stats (N.to_nat (dq_lines p)) (idle_word (N.to_nat (dq_lines p)) (dq_rests_high (fi_std p))) (data_drives p read false (0, 0) (map Do cs)) n
  | Some d =>
      let busy := beats_driven (dq_lines p) (fi_rate p) true (burst_lengths p read cs) n in
      if read then estimate (dq_lines p) busy (n - busy) (td_read_rate d) (td_read_duty d) (high (td_read_idle d))
      else estimate (dq_lines p) busy (n - busy) (td_write_rate d) (td_write_duty d) (high (td_write_idle d))
  end.
(* What the lines of a group carry in t cycles.  Clocks are pairs of lines; the
   inversion pins, as inversion is off, stay at the level that costs nothing. *)
Definition wire_counts (p : ifspec) (sim : option toggle_def) (cs : list Command) (t : N) (g : group) : bus_stats :=
  let bus := no_toggle sim in
  let s := fi_std p in
  match g with
  | CK => scale 2 (periods 1 t)
  | WCK => scale 2 (periods (fi_rate p / fi_wck p / 2) (if fi_wck_on p then t else total_cycles p bus wants_any cs))
  | CA => wave_stats (ca_pins s) (idle_word (ca_pins s) (ca_rests_high s)) (ca_drives p bus cs) (t * ca_beats s)
  | RDQ => data_counts p sim cs t true
  | WDQ => data_counts p sim cs t false
  | RDQS => scale (strobe_lines p) (periods (dqs_rate p / 2) (total_cycles p bus wants_read cs))
  | WDQS => scale (strobe_lines p) (periods (dqs_rate p / 2) (total_cycles p bus negb cs))
  | RDBI | WDBI => stats0
  end.

(* ---- their energy ---- *)

(* V^2 / R for as long as a terminated line is at the burning level, and an energy
   for every rising edge. *)
Definition wire_static (p : ifspec) (e : ispec) (sim : option toggle_def) (cs : list Command) (t : N) (g : group) : Q :=
  if ln_term (impedance e g)
  then (is_vddq e * is_vddq e / ln_R (impedance e g) * (qn (field_at (wire_counts p sim cs t g) (burning (fi_std p))) * beat e g))%Q
  else 0%Q.
Definition wire_dynamic (p : ifspec) (e : ispec) (sim : option toggle_def) (cs : list Command) (t : N) (g : group) : Q :=
  (ln_E (impedance e g) * qn (z2o (wire_counts p sim cs t g)))%Q.
Definition driven_groups (p : ifspec) (s : side) : list group := filter (driven_by s) (groups (fi_std p)).
(* The energy of the core: voltage times charge. *)
Definition core_charge (p : memspec) (e : espec) (I : power -> Q -> Q) (cs : list Command) (t : N) : Q :=
  (qsum (fun w => qsum (fun r => qnat (es_devices e) * (pw_v w * charge p e w (I w) r cs t)) (seq 0 (ms_ranks p))) (es_domains e))%Q.

(* ---- what is asked of a trace ---- *)

Record calm (p : ifspec) (e : ispec) (sim : option toggle_def) (cs : list Command) (t : N) : Prop := {
  (* The bursts follow one another, whatever their direction, and are over at the end. *)
  ca_order : bursts_in_order p (no_toggle sim) wants_any 0 t cs;
  (* The strobes, and the second clock, have whole periods. *)
  ca_strobe : N.even (dqs_rate p) = true;
  ca_wck : two_clocks (fi_std p) = true -> N.even (fi_rate p / fi_wck p) = true;
  (* The divisors of the energy calculation are not zero. *)
  ca_usable : usable e;
  (* DDR4, whose ambles are counted wrongly otherwise: no burst follows another one
     of its direction and rank without a gap, and none starts in cycle 0. *)
  ca_gaps : fi_std p = DDR4 -> forall rank read, (rank < fi_ranks p)%nat ->
    back_to_back (rank_bursts p (no_toggle sim) read rank cs) = 0 /\ at_zero (rank_bursts p (no_toggle sim) read rank cs) = 0;
  (* DDR5, whose toggling rates are counted on unterminated lines otherwise. *)
  ca_term : fi_std p = DDR5 -> sim <> None -> ln_term (impedance e RDQ) = true /\ ln_term (impedance e WDQ) = true;
  (* No count exceeds 64 bits. *)
  ca_small : t * (fi_rate p + dqs_rate p + 2) * (dq_lines p + 32) + 64 < two64
}.
