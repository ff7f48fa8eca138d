(* C46: a DRAM object is its core and its interface side by side. *)
From Coq Require Import NArith QArith List Bool.
From Verif Require Import Base Command CoreModel Bits HistorySpec StatsModel StatsSpec EnergyModel IfEnergyModel InterfaceModel InterfaceSpec DramModel DramSpec DramProofs InterfaceExamples DramExamples StatsTime.
Import ListNotations.
Local Open Scope N_scope.

(* doCommand on the object returns exactly when it returns on the core alone and
   on the interface alone. *)
Theorem C46_commands_split : forall p cs d d', uses_run p (map Both cs) d = Returned d' <->
  run_core (dp_core p) cs (dr_core d) = Ok (dr_core d') /\ calls_run (map Do cs) (dr_if d) = Value (dr_if d').
Proof. exact commands_split. Qed.
Print Assumptions C46_commands_split.

(* After any mixture of doCommand, doCoreCommand, doInterfaceCommand, extension
   calls and queries, the statistics are those of a core alone that has seen the
   commands meant for it and no query, and of an interface alone that has seen the
   calls meant for it; the core energy is computed from the former only, the
   interface energy from the latter only. *)
Theorem C46_statistics_split : forall p us t d0 d d' st,
  views_agree p -> dram_new p = Value d0 -> uses_run p us d0 = Returned d ->
  nondecreasing 0 (map op_time (core_ops us)) -> final_time 0 (map op_time (core_ops us)) <= t -> dram_window p t d = Returned (d', st) ->
  exists s i0 i si,
    run_core (dp_core p) (HistorySpec.commands (core_ops us)) (core_new (dp_core p)) = Ok s /\
    iface_new (dp_if p) (dp_sim p) = Value i0 /\ calls_run (iface_calls us) i0 = Value i /\ if_window i t sim_stats0 = Value si /\
    let own := snd (window_stats (dp_core p) t s) in
    (forall n, bus_at st n = bus_at si n) /\
    ss_bank st = map bank_entry (st_bank own) /\
    length (ss_rank st) = ms_ranks (dp_core p) /\
    (forall r, (r < ms_ranks (dp_core p))%nat -> exists c, shown_rank own r = Some c /\ nth_error (ss_rank st) r = Some (rank_entry c (nth_error (ss_rank si) r))) /\
    calc_core_stats p st = calc_energy (dp_ce p) (fill_core own) /\
    calc_interface_stats p st = calculateEnergy (dp_ie p) si.
Proof. exact statistics_split. Qed.
Print Assumptions C46_statistics_split.
Example C46_statistics_split_case :
  Forall (fun s => views_agree (ex_dspec s)) [DDR4; DDR5; LPDDR4; LPDDR5; LPDDR6] /\
  Forall (fun s => nondecreasing 0 (map op_time (core_ops (dram_day s))) /\ final_time 0 (map op_time (core_ops (dram_day s))) <= 200) [DDR4; DDR5; LPDDR4; LPDDR5; LPDDR6] /\
  Forall (fun s => option_map (fun x => sums_of (snd x)) (dram_after (ex_dspec s) (dram_day s) 200) =
    Some (match s with DDR4 => (5338, 3168, 1) | DDR5 => (2738, 3168, 1) | LPDDR4 => (14, 32, 1) | LPDDR5 => (24, 64, 1) | LPDDR6 => (23, 128, 1) end)) [DDR4; DDR5; LPDDR4; LPDDR5; LPDDR6].
Proof. split; [repeat constructor; apply ex_views|]. split; [exact dram_day_timed|exact dram_days]. Qed.

(* A query can be repeated, and the total energy, which queries twice, is the sum
   of the energies of one set of statistics. *)
Theorem C46_query_twice : forall p t d d' st, dram_window p t d = Returned (d', st) -> dram_window p t d' = Returned (d', st).
Proof. exact window_twice. Qed.
Print Assumptions C46_query_twice.
Example C46_query_twice_case : Forall (fun s => option_map (fun x => sums_of (snd x)) (dram_after (ex_dspec s) (dram_day s) 200) =
  Some (match s with DDR4 => (5338, 3168, 1) | DDR5 => (2738, 3168, 1) | LPDDR4 => (14, 32, 1) | LPDDR5 => (24, 64, 1) | LPDDR6 => (23, 128, 1) end)) [DDR4; DDR5; LPDDR4; LPDDR5; LPDDR6].
Proof. exact dram_days. Qed.
Theorem C46_total_energy : forall p t d d' st a b,
  dram_window p t d = Returned (d', st) -> calc_core_stats p st = Exactly a -> calc_interface_stats p st = Exactly b ->
  total_energy p t d = Returned (d', Exactly (en_total a + ie_total b))%Q.
Proof. exact total_split. Qed.
Print Assumptions C46_total_energy.
Example C46_total_energy_case :
  match dram_after (ex_dspec LPDDR5) (dram_day LPDDR5) 200 with
  | Some (d, st) => match calc_core_stats (ex_dspec LPDDR5) st, calc_interface_stats (ex_dspec LPDDR5) st, total_energy (ex_dspec LPDDR5) 200 d with
                    | Exactly _, Exactly _, Returned (_, Exactly _) => true
                    | _, _, _ => false
                    end
  | None => false
  end = true.
Proof. vm_compute. reflexivity. Qed.

(* getStats asks for the later of the times of the last command to the core and of
   the last command to the interface. *)
Theorem C46_get_stats : forall p us d0 d, Forall is_command us -> dram_new p = Value d0 -> uses_run p us d0 = Returned d -> nondecreasing 0 (core_times us) ->
  dram_stats p d = dram_window p (N.max (final_time 0 (core_times us)) (final_time 0 (iface_times us))) d.
Proof. exact stats_time. Qed.
Print Assumptions C46_get_stats.
Example C46_get_stats_case :
  let us := [Both (cmd_at 0 ACT 0 3 0 []); CoreOnly (cmd_at 150 ACT 4 0 0 []); Iface (Do (cmd_at 160 PREA 0 0 0 []))] in
  Forall is_command us /\ nondecreasing 0 (core_times us) /\ final_time 0 (core_times us) = 150 /\ final_time 0 (iface_times us) = 160 /\
  forallb (fun s => match dram_after (ex_dspec s) us 160 with Some _ => true | None => false end) [DDR4; DDR5; LPDDR4; LPDDR5; LPDDR6] = true.
Proof. cbv zeta. split; [repeat constructor|]. split; [vm_compute; repeat split; discriminate|]. split; [reflexivity|]. split; [reflexivity|]. vm_compute. reflexivity. Qed.
