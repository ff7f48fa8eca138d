(* Simulation statistics.  Models src/DRAMPower/DRAMPower/data/stats.h. *)
From Coq Require Import NArith List Bool.
From Verif Require Import Base Command CoreModel Bits.
Import ListNotations.
Local Open Scope N_scope.

(* command_stats_t::operator==: data/stats.h 57-69. *)
Definition cs_eqb (a b : cstats) : bool :=
  (cs_act a =? cs_act b) && (cs_pre a =? cs_pre b) && (cs_reads a =? cs_reads b) && (cs_writes a =? cs_writes b) &&
  (cs_refAllBank a =? cs_refAllBank b) && (cs_refPerBank a =? cs_refPerBank b) && (cs_refPerTwoBanks a =? cs_refPerTwoBanks b) &&
  (cs_refDualBanks a =? cs_refDualBanks b) && (cs_refSameBank a =? cs_refSameBank b) && (cs_readAuto a =? cs_readAuto b) &&
  (cs_writeAuto a =? cs_writeAuto b).
(* command_stats_t::operator+=: data/stats.h 71-84. *)
Definition cs_add (a b : cstats) : cstats :=
  mkCstats (u64_add (cs_act a) (cs_act b)) (u64_add (cs_pre a) (cs_pre b)) (u64_add (cs_reads a) (cs_reads b)) (u64_add (cs_writes a) (cs_writes b))
    (u64_add (cs_refAllBank a) (cs_refAllBank b)) (u64_add (cs_refPerBank a) (cs_refPerBank b)) (u64_add (cs_refPerTwoBanks a) (cs_refPerTwoBanks b))
    (u64_add (cs_refDualBanks a) (cs_refDualBanks b)) (u64_add (cs_refSameBank a) (cs_refSameBank b)) (u64_add (cs_readAuto a) (cs_readAuto b))
    (u64_add (cs_writeAuto a) (cs_writeAuto b)).

(* cycles_t default initialisers: data/stats.h 89-94. *)
Definition cy_zero : cycles := mkCycles 0 0 0 0 0 0.
(* cycles_t::operator==: data/stats.h 116-123. *)
Definition cy_eqb (a b : cycles) : bool :=
  (cy_act a =? cy_act b) && (cy_pre a =? cy_pre b) && (cy_pda a =? cy_pda b) && (cy_pdp a =? cy_pdp b) && (cy_sref a =? cy_sref b) && (cy_dsm a =? cy_dsm b).
(* cycles_t::operator+=: data/stats.h 125-133. *)
Definition cy_add (a b : cycles) : cycles :=
  mkCycles (u64_add (cy_act a) (cy_act b)) (u64_add (cy_pre a) (cy_pre b)) (u64_add (cy_pda a) (cy_pda b)) (u64_add (cy_pdp a) (cy_pdp b))
    (u64_add (cy_sref a) (cy_sref b)) (u64_add (cy_dsm a) (cy_dsm b)).

(* prepos_t: data/stats.h 137-143. *)
Record prepos := mkPrepos { pp_rm : N; pp_rmt : N; pp_wm : N; pp_wmt : N; pp_rs : N; pp_ws : N }.
(* Default initialisers: data/stats.h 138-143. *)
Definition pp_zero : prepos := mkPrepos 0 0 0 0 0 0.
(* prepos_t::operator==: data/stats.h 163-170. *)
Definition pp_eqb (a b : prepos) : bool :=
  (pp_rm a =? pp_rm b) && (pp_rmt a =? pp_rmt b) && (pp_wm a =? pp_wm b) && (pp_wmt a =? pp_wmt b) && (pp_rs a =? pp_rs b) && (pp_ws a =? pp_ws b).
(* prepos_t::operator+=: data/stats.h 173-181. *)
Definition pp_add (a b : prepos) : prepos :=
  mkPrepos (u64_add (pp_rm a) (pp_rm b)) (u64_add (pp_rmt a) (pp_rmt b)) (u64_add (pp_wm a) (pp_wm b)) (u64_add (pp_wmt a) (pp_wmt b))
    (u64_add (pp_rs a) (pp_rs b)) (u64_add (pp_ws a) (pp_ws b)).

(* CycleStats: data/stats.h 185-190. *)
Record cycle_stats := mkCS { cs_counter : cstats; cs_cycles : cycles; cs_prepos : prepos }.
(* Value-initialised: data/stats.h 188-190. *)
Definition cycle_stats0 : cycle_stats := mkCS cs_zero cy_zero pp_zero.
(* CycleStats::operator==: data/stats.h 204-208. *)
Definition cyc_eqb (a b : cycle_stats) : bool :=
  cs_eqb (cs_counter a) (cs_counter b) && cy_eqb (cs_cycles a) (cs_cycles b) && pp_eqb (cs_prepos a) (cs_prepos b).
(* CycleStats::operator+=: data/stats.h 211-216. *)
Definition cyc_add (a b : cycle_stats) : cycle_stats :=
  mkCS (cs_add (cs_counter a) (cs_counter b)) (cy_add (cs_cycles a) (cs_cycles b)) (pp_add (cs_prepos a) (cs_prepos b)).

(* SimulationStats: data/stats.h 227-245, TogglingStats: 220-224. *)
Record sim_stats := mkSim {
  ss_commandBus : bus_stats; ss_readBus : bus_stats; ss_writeBus : bus_stats; ss_clock : bus_stats; ss_wClock : bus_stats;
  ss_readDBI : bus_stats; ss_writeDBI : bus_stats; ss_togRead : bus_stats; ss_togWrite : bus_stats;
  ss_readDQS : bus_stats; ss_writeDQS : bus_stats;
  ss_bank : list cycle_stats; ss_rank : list cycle_stats
}.
(* A value-initialised SimulationStats. *)
(* data/stats.h 227-244. *)
Definition sim_stats0 : sim_stats :=
  mkSim stats0 stats0 stats0 stats0 stats0 stats0 stats0 stats0 stats0 stats0 stats0 [] [].

(* bus_stats_t::operator==: util/bus_types.h 72-78. *)
Definition bus_eqb (a b : bus_stats) : bool :=
  (ones a =? ones b) && (zeroes a =? zeroes b) && (changes a =? changes b) && (o2z a =? o2z b) && (z2o a =? z2o b).
(* The comparison of the vectors: data/stats.h 249-270. *)
Fixpoint vec_eqb (a b : list cycle_stats) : bool :=
  match a, b with [], [] => true | x :: a, y :: b => cyc_eqb x y && vec_eqb a b | _, _ => false end.
(* SimulationStats::operator==: data/stats.h 247-284. *)
Definition sim_eqb (a b : sim_stats) : bool :=
  bus_eqb (ss_commandBus a) (ss_commandBus b) && bus_eqb (ss_readBus a) (ss_readBus b) && bus_eqb (ss_writeBus a) (ss_writeBus b) &&
  bus_eqb (ss_clock a) (ss_clock b) && bus_eqb (ss_wClock a) (ss_wClock b) && bus_eqb (ss_readDBI a) (ss_readDBI b) &&
  bus_eqb (ss_writeDBI a) (ss_writeDBI b) && bus_eqb (ss_togRead a) (ss_togRead b) && bus_eqb (ss_togWrite a) (ss_togWrite b) &&
  bus_eqb (ss_readDQS a) (ss_readDQS b) && bus_eqb (ss_writeDQS a) (ss_writeDQS b) && vec_eqb (ss_bank a) (ss_bank b) && vec_eqb (ss_rank a) (ss_rank b).
(* Adding the common prefix and appending the rest of the longer right-hand
   vector: data/stats.h 287-303. *)
Fixpoint vec_add (a b : list cycle_stats) : list cycle_stats :=
  match a, b with [], b => b | a, [] => a | x :: a, y :: b => cyc_add x y :: vec_add a b end.
(* SimulationStats::operator+=: data/stats.h 286-317. *)
Definition sim_add (a b : sim_stats) : sim_stats :=
  mkSim (stats_add (ss_commandBus a) (ss_commandBus b)) (stats_add (ss_readBus a) (ss_readBus b)) (stats_add (ss_writeBus a) (ss_writeBus b))
    (stats_add (ss_clock a) (ss_clock b)) (stats_add (ss_wClock a) (ss_wClock b)) (stats_add (ss_readDBI a) (ss_readDBI b))
    (stats_add (ss_writeDBI a) (ss_writeDBI b)) (stats_add (ss_togRead a) (ss_togRead b)) (stats_add (ss_togWrite a) (ss_togWrite b))
    (stats_add (ss_readDQS a) (ss_readDQS b)) (stats_add (ss_writeDQS a) (ss_writeDQS b)) (vec_add (ss_bank a) (ss_bank b)) (vec_add (ss_rank a) (ss_rank b)).
