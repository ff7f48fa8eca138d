(* Using a DRAM object, and what its core and its interface see of that. *)
From Coq Require Import NArith QArith List Bool.
From Verif Require Import Base Command CoreModel Bits HistorySpec StatsModel StatsSpec EnergyModel IfEnergyModel InterfaceModel InterfaceSpec DramModel.
Import ListNotations.
Local Open Scope N_scope.

(* doCommand, doCoreCommand, a call on the interface (doInterfaceCommand, an
   extension), a query: getWindowStats or one of the energy calculations. *)
Inductive use := Both (c : Command) | CoreOnly (c : Command) | Iface (x : call) | Ask (t : N).
Definition use_do (p : dspec) (u : use) (d : dram) : dram_result dram :=
  match u with
  | Both c => do_dram_command p c d
  | CoreOnly c => do_core_command p c d
  | Iface x => match call_do x (dr_if d) with Value i => Returned (mkDram (dr_core d) i) | Fails f => InterfaceStops f (dr_core d) end
  | Ask t => match dram_window p t d with Returned (d1, _) => Returned d1 | CoreStops f => CoreStops f | InterfaceStops f s => InterfaceStops f s end
  end.
Fixpoint uses_run (p : dspec) (us : list use) (d : dram) : dram_result dram :=
  match us with
  | [] => Returned d
  | u :: us => match use_do p u d with Returned d1 => uses_run p us d1 | x => x end
  end.

(* What a core alone, and an interface alone, would have been asked to do. *)
Definition core_ops (us : list use) : list op :=
  flat_map (fun u => match u with Both c | CoreOnly c => [Cmd c] | Iface _ => [] | Ask t => [Query t] end) us.
Definition iface_calls (us : list use) : list call :=
  flat_map (fun u => match u with Both c => [Do c] | Iface x => [x] | CoreOnly _ | Ask _ => [] end) us.

(* The four views of one memory description agree. *)
Record views_agree (p : dspec) : Prop := {
  va_if : fi_std (dp_if p) = ms_std (dp_core p);
  va_ce : es_std (dp_ce p) = ms_std (dp_core p);
  va_ie : is_std (dp_ie p) = ms_std (dp_core p);
  va_ranks : fi_ranks (dp_if p) = ms_ranks (dp_core p) /\ es_ranks (dp_ce p) = ms_ranks (dp_core p);
  va_banks : es_banks (dp_ce p) = ms_banks (dp_core p)
}.

(* The entry of a bank as the core alone shows it, and of a rank as the core and
   the interface show it together. *)
Definition bank_entry (b : bank_stats) : cycle_stats := mkCS (bs_counter b) (bs_cycles b) pp_zero.
Definition rank_entry (c : cycles) (a : option cycle_stats) : cycle_stats :=
  mkCS cs_zero c match a with Some e => cs_prepos e | None => pp_zero end.
