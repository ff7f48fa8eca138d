(* C60: what power-down saves.  A trace is compared with the same trace without the
   entries to and exits from power-down (awake, SaveSpec.v).  Nothing else of what
   the library reports changes, and the difference in energy is the current that
   power-down avoids, cycle by cycle. *)
From Coq Require Import NArith QArith List Bool.
From Verif Require Import Base Command CoreModel HistorySpec DeviceSpec StatsModel EnergyModel EnergySpec EnergyMore DramModel DramExamples ProgressExamples ProgressTop ChargeSpec ChargeTop
  ComposeExamples SaveSpec SaveTop SaveExamples.
Import ListNotations.
Local Open Scope N_scope.

Theorem C60_legal : forall p cs t, timely p cs t -> legal_history p cs -> undisturbed p cs ->
  timely p (awake cs) t /\ legal_history p (awake cs).
Proof. exact legal_awake. Qed.
Print Assumptions C60_legal.
Example C60_legal_case : Forall (fun s => DeviceSpec.well_formed (memory s) /\ timely (memory s) (day_commands s) 1000 /\ legal_history (memory s) (day_commands s) /\
  undisturbed (memory s) (day_commands s) /\ length (awake (day_commands s)) <> length (day_commands s)) five.
Proof. apply in_five. intros s. destruct (day_legal s) as (A & B & C). repeat (split; [assumption|]). split; [apply day_undisturbed|]. destruct s; discriminate. Qed.

(* Cycles in active power-down become active cycles of the rank, cycles in precharge
   power-down become idle cycles, and self-refresh and deep sleep stay. *)
Theorem C60_rank_times : forall p cs t, DeviceSpec.well_formed p -> timely p cs t -> legal_history p cs -> undisturbed p cs ->
  forall r, (r < ms_ranks p)%nat ->
  exists v, rank_view p cs t r = Some v /\
    rank_view p (awake cs) t r = Some (mkCycles (cy_act v + cy_pda v) (cy_pre v + cy_pdp v) 0 0 (cy_sref v) (cy_dsm v)).
Proof. exact rank_awake. Qed.
Print Assumptions C60_rank_times.
Example C60_rank_times_case : map (fun s => option_map (fun v => (cy_act v, cy_pda v)) (rank_view (memory s) (day_commands s) 1000 0)) [DDR4; LPDDR6] = [Some (342, 30); Some (402, 30)] /\
  map (fun s => option_map (fun v => (cy_act v, cy_pda v)) (rank_view (memory s) (awake (day_commands s)) 1000 0)) [DDR4; LPDDR6] = [Some (372, 0); Some (432, 0)].
Proof. split; vm_compute; reflexivity. Qed.

(* A bank is then active whenever it has an open row or is refreshed. *)
Theorem C60_bank_times : forall p cs t, DeviceSpec.well_formed p -> timely p cs t -> legal_history p cs -> undisturbed p cs ->
  forall r b, (r < ms_ranks p)%nat -> (b < ms_banks p)%nat ->
  exists v, bank_view p (awake cs) t r b = Some v /\
    cy_act v = cycles_where p r cs t (bank_in_use b) /\ cy_pre v = cycles_where p r cs t (bank_at_rest b) /\ cy_pda v = 0 /\ cy_pdp v = 0.
Proof. exact bank_awake. Qed.
Print Assumptions C60_bank_times.
Example C60_bank_times_case : option_map (fun v => (cy_act v, cy_pda v)) (bank_view (memory DDR4) (day_commands DDR4) 1000 0 8) = Some (270, 30) /\
  option_map (fun v => (cy_act v, cy_pda v)) (bank_view (memory DDR4) (awake (day_commands DDR4)) 1000 0 8) = Some (300, 0).
Proof. split; vm_compute; reflexivity. Qed.

Theorem C60_counters : forall p cs t, DeviceSpec.well_formed p -> timely p cs t -> legal_history p cs -> undisturbed p cs ->
  forall r b k, (r < ms_ranks p)%nat -> (b < ms_banks p)%nat ->
  exists n, bank_counter p cs t r b k = Some n /\ bank_counter p (awake cs) t r b k = Some n.
Proof. exact counter_awake. Qed.
Print Assumptions C60_counters.
Example C60_counters_case : map (fun k => bank_counter (memory DDR4) (day_commands DDR4) 1000 0 8 k) [K_act; K_pre; K_refAllBank] = [Some 1; Some 1; Some 2].
Proof. vm_compute. reflexivity. Qed.

(* The energy of the core without power-down is the energy with power-down and the
   saving. *)
Theorem C60_energy : forall p cs t, DeviceSpec.well_formed p -> timely p cs t -> legal_history p cs -> undisturbed p cs ->
  forall e I, EnergySpec.well_formed e -> same_memory p e -> backgrounds e I ->
  exists s s' en en', run_core p cs (core_new p) = Ok s /\ run_core p (awake cs) (core_new p) = Ok s' /\
    calc_energy e (fill_core (snd (window_stats p t s))) = Exactly en /\ calc_energy e (fill_core (snd (window_stats p t s'))) = Exactly en' /\
    (en_total en' == en_total en + saving p e I cs t)%Q.
Proof. exact energy_awake. Qed.
Print Assumptions C60_energy.
(* If power-down draws no more current than standby then it never costs energy. *)
Theorem C60_saves : forall p cs t, DeviceSpec.well_formed p -> timely p cs t -> legal_history p cs -> undisturbed p cs ->
  forall e I, EnergySpec.well_formed e -> same_memory p e -> backgrounds e I -> worthwhile e I ->
  exists s s' en en', run_core p cs (core_new p) = Ok s /\ run_core p (awake cs) (core_new p) = Ok s' /\
    calc_energy e (fill_core (snd (window_stats p t s))) = Exactly en /\ calc_energy e (fill_core (snd (window_stats p t s'))) = Exactly en' /\
    (en_total en <= en_total en')%Q.
Proof. exact saves. Qed.
Print Assumptions C60_saves.
Example C60_saves_case : Forall (fun s => EnergySpec.well_formed (dp_ce (ex_dspec s)) /\ same_memory (memory s) (dp_ce (ex_dspec s)) /\
  backgrounds (dp_ce (ex_dspec s)) (bg (dp_ce (ex_dspec s))) /\ worthwhile (dp_ce (ex_dspec s)) (bg (dp_ce (ex_dspec s)))) five.
Proof. apply in_five. intros s. split; [apply ex_energy_formed|]. split; [apply ex_same|]. split; [intros w _; apply bg_exists, ex_energy_formed|apply ex_worthwhile]. Qed.

(* Without active power-down the saving can be read off the times that the library
   reports. *)
Theorem C60_saving_precharge : forall p cs t, DeviceSpec.well_formed p -> timely p cs t -> legal_history p cs ->
  forall e I f, (forall c, In c cs -> cmd_type c <> PDEA) ->
  (forall r v, (r < ms_ranks p)%nat -> rank_view p cs t r = Some v -> f r = cy_pdp v) ->
  (saving p e I cs t == qsum (fun w => qsum (fun r => qnat (es_devices e) * (pw_v w * ((pw_i2n w - pw_i2p w) * cycles_time e (f r)))) (seq 0 (ms_ranks p))) (es_domains e))%Q.
Proof. exact saving_precharge. Qed.
Print Assumptions C60_saving_precharge.
Example C60_saving_precharge_case :
  Forall (fun s => timely (memory s) naps 500 /\ legal_history (memory s) naps /\ (forall c, In c naps -> cmd_type c <> PDEA)) five /\
  map (fun s => option_map (fun v => (cy_pre v, cy_pdp v)) (rank_view (memory s) naps 500 0)) five = repeat (Some (50, 242)) 5.
Proof. exact (conj naps_day naps_times). Qed.

(* Without the condition on auto-precharge it is not so: leaving active power-down
   restarts the time tRAS that a row has to stay open, and a read with auto-precharge
   soon after it closes its row later than without power-down. *)
Theorem C60_auto_precharge_refuted : exists p cs t, DeviceSpec.well_formed p /\ timely p cs t /\ legal_history p cs /\ timely p (awake cs) t /\ legal_history p (awake cs) /\
  exists v v', rank_view p cs t 0 = Some v /\ rank_view p (awake cs) t 0 = Some v' /\ cy_act v' < cy_act v + cy_pda v /\ cy_pre v + cy_pdp v < cy_pre v'.
Proof. exact held_up_longer. Qed.
Print Assumptions C60_auto_precharge_refuted.
