(* The DRAM classes: a core and an interface behind one object.
   Citations: B = dram/dram_base.h; D4 = standards/ddr4/DDR4.cpp, D4h = DDR4.h;
   D5 = standards/ddr5/DDR5.cpp, L4 = standards/lpddr4/LPDDR4.cpp,
   L5 = standards/lpddr5/LPDDR5.cpp, L6 = standards/lpddr6/LPDDR6.cpp, all under
   src/DRAMPower/DRAMPower. *)
From Coq Require Import NArith QArith List Bool.
From Verif Require Import Base Command CoreModel Bits BusModel StatsModel EnergyModel IfEnergyModel InterfaceModel.
Import ListNotations.
Local Open Scope N_scope.

(* m_memSpec and the simulation config, as the core, the interface and the two
   calculations read it (D4 17-21, 49-57; D5 16-20, 32-40; L4 14-18, 42-50; L5
   16-20, 43-51; L6 16-20, 49-57).  The code hands the same MemSpec to all four;
   here each has the view defined beside its model. *)
Record dspec := mkDspec { dp_core : memspec; dp_if : ifspec; dp_sim : option toggle_def; dp_ce : espec; dp_ie : ispec }.

(* m_interface and m_core: D4h 80-81; DDR5.h 76-77; LPDDR4.h 79-80; LPDDR5.h 77-78;
   LPDDR6.h 75-76.  The extension manager is not part of this record. *)
Record dram := mkDram { dr_core : core; dr_if : iface }.

(* Constructors: D4 17-23; D5 16-20; L4 14-20; L5 16-22; L6 16-22. *)
Definition dram_new (p : dspec) : result dram :=
  i <- iface_new (dp_if p) (dp_sim p) ;; Value (mkDram (core_new (dp_core p)) i).

(* What a call can do: return, or stop in the core, or stop in the interface with
   the core given. *)
(* doCoreInterfaceCommand: B 64-67; getWindowStats: D4 60-65. *)
Inductive dram_result (A : Type) : Type :=
| Returned (a : A)
| CoreStops (f : failure)
| InterfaceStops (f : failure) (c : core).
Arguments Returned {A} a.
Arguments CoreStops {A} f.
Arguments InterfaceStops {A} f c.

(* doCoreCommand: B 55-57; D4h 65-67; DDR5.h 61-63; LPDDR4.h 64-66; LPDDR5.h
   62-64; LPDDR6.h 60-62. *)
Definition do_core_command (p : dspec) (c : Command) (d : dram) : dram_result dram :=
  match do_command (dp_core p) c (dr_core d) with
  | Ok s => Returned (mkDram s (dr_if d))
  | Throws _ => CoreStops Exception
  | Asserts => CoreStops Assertion
  | Undefined => CoreStops UB
  end.
(* doInterfaceCommand: B 59-61; D4h 68-70; DDR5.h 64-66; LPDDR4.h 67-69; LPDDR5.h
   65-67; LPDDR6.h 63-65. *)
Definition do_interface_command (c : Command) (d : dram) : dram_result dram :=
  match if_command c (dr_if d) with
  | Value i => Returned (mkDram (dr_core d) i)
  | Fails f => InterfaceStops f (dr_core d)
  end.
(* doCommand: B 64-67. *)
Definition do_dram_command (p : dspec) (c : Command) (d : dram) : dram_result dram :=
  match do_core_command p c d with
  | Returned d1 => do_interface_command c d1
  | x => x
  end.

(* getLastCommandTime: B 74-76; D4h 71-73; DDR5.h 67-69; LPDDR4.h 70-72; LPDDR5.h
   68-70; LPDDR6.h 66-68. *)
Definition dram_last_time (d : dram) : N := N.max (get_last_command_time (dr_core d)) (if_last (dr_if d)).
(* isSerializable: D4h 56-58; DDR5.h 41-43; LPDDR4.h 54-56; LPDDR5.h 53-55;
   LPDDR6.h 51-53. *)
Definition dram_serializable (d : dram) : bool := is_serializable (dr_core d).

(* What the getWindowStats of a core leaves in a fresh SimulationStats: the
   counters and cycles of stats.bank, the cycles of stats.rank_total; every other
   field keeps its initialiser.  standards/ddr4/DDR4Core.cpp 298-332;
   ddr5/DDR5Core.cpp 316-352; lpddr4/LPDDR4Core.cpp 292-330;
   lpddr5/LPDDR5Core.cpp 325-367; lpddr6/LPDDR6Core.cpp 300-342. *)
Definition fill_core (a : core_stats) : sim_stats :=
  mkSim stats0 stats0 stats0 stats0 stats0 stats0 stats0 stats0 stats0 stats0 stats0
    (map (fun b => mkCS (bs_counter b) (bs_cycles b) pp_zero) (st_bank a))
    (map (fun c => mkCS cs_zero c pp_zero) (st_rank a)).
(* getWindowStats: D4 60-65; D5 43-48; L4 53-58; L5 54-59; L6 60-65. *)
Definition dram_window (p : dspec) (t : N) (d : dram) : dram_result (dram * sim_stats) :=
  let (s, a) := window_stats (dp_core p) t (dr_core d) in
  match if_window (dr_if d) t (fill_core a) with
  | Value st => Returned (mkDram s (dr_if d), st)
  | Fails f => InterfaceStops f s
  end.
(* getStats: B 82-84. *)
Definition dram_stats (p : dspec) (d : dram) : dram_result (dram * sim_stats) := dram_window p (dram_last_time d) d.

(* calcCoreEnergyStats: D4 49-52; D5 32-35; L4 42-45; L5 43-46; L6 49-52. *)
Definition calc_core_stats (p : dspec) (st : sim_stats) : calc energy := calc_energy (dp_ce p) st.
(* calcInterfaceEnergyStats: D4 54-57; D5 37-40; L4 47-50; L5 48-51; L6 54-57. *)
Definition calc_interface_stats (p : dspec) (st : sim_stats) : calc ienergy := calculateEnergy (dp_ie p) st.
(* calcCoreEnergy: B 101-103. *)
Definition calc_core (p : dspec) (t : N) (d : dram) : dram_result (dram * calc energy) :=
  match dram_window p t d with
  | Returned (d1, st) => Returned (d1, calc_core_stats p st)
  | CoreStops f => CoreStops f
  | InterfaceStops f s => InterfaceStops f s
  end.
(* calcInterfaceEnergy: B 105-107. *)
Definition calc_interface (p : dspec) (t : N) (d : dram) : dram_result (dram * calc ienergy) :=
  match dram_window p t d with
  | Returned (d1, st) => Returned (d1, calc_interface_stats p st)
  | CoreStops f => CoreStops f
  | InterfaceStops f s => InterfaceStops f s
  end.
(* getTotalEnergy: B 78-80.  The order of the two calls is unspecified in C++;
   the core energy is taken first here. *)
Definition total_energy (p : dspec) (t : N) (d : dram) : dram_result (dram * calc Q) :=
  match calc_core p t d with
  | Returned (d1, a) =>
      match calc_interface p t d1 with
      | Returned (d2, b) => Returned (d2, getTotalEnergy a b)
      | CoreStops f => CoreStops f
      | InterfaceStops f s => InterfaceStops f s
      end
  | CoreStops f => CoreStops f
  | InterfaceStops f s => InterfaceStops f s
  end.
