(* C51: the energy of the core is voltage times charge, where the charge is a
   standby current for every clock cycle, given by the state the rank is in, and a
   fixed amount for every command.  The state of a rank and the charge are those
   of DeviceSpec.v and ChargeSpec.v. *)
From Coq Require Import NArith QArith List Bool.
From Verif Require Import Base Command CoreModel HistorySpec DeviceSpec ExampleCores StatsModel EnergyModel EnergySpec EnergyExamples IfEnergyModel Bits InterfaceModel InterfaceSpec
  DramModel DramSpec DramExamples ProgressSpec ProgressProofs ProgressQuery ProgressExamples ProgressTop ChargeSpec ChargeProofs ChargeTop.
Import ListNotations.
Local Open Scope Q_scope.

Theorem C51_core_energy : forall p e I cs t s, DeviceSpec.well_formed p -> EnergySpec.well_formed e -> same_memory p e -> backgrounds e I ->
  timely p cs t -> legal_history p cs -> run_core p cs (core_new p) = Ok s ->
  exists en, calc_energy e (fill_core (snd (window_stats p t s))) = Exactly en /\
    en_total en == qsum (fun w => qsum (fun r => qnat (es_devices e) * (pw_v w * charge p e w (I w) r cs t)) (seq 0 (ms_ranks p))) (es_domains e).
Proof. exact core_energy_charge. Qed.
Print Assumptions C51_core_energy.
Example C51_core_energy_case : Forall (fun s =>
  DeviceSpec.well_formed (dp_core (ex_dspec s)) /\ EnergySpec.well_formed (dp_ce (ex_dspec s)) /\ same_memory (dp_core (ex_dspec s)) (dp_ce (ex_dspec s)) /\
  (exists I, backgrounds (dp_ce (ex_dspec s)) I) /\ timely (dp_core (ex_dspec s)) (day_commands s) 1000 /\ legal_history (dp_core (ex_dspec s)) (day_commands s) /\
  exists x, run_core (dp_core (ex_dspec s)) (day_commands s) (core_new (dp_core (ex_dspec s))) = Ok x) five.
Proof. exact charge_case. Qed.

(* The background currents that the theorem asks for exist for every description. *)
Theorem C51_backgrounds : forall e, EnergySpec.well_formed e -> exists I, backgrounds e I.
Proof. exact backgrounds_exist. Qed.
Print Assumptions C51_backgrounds.
Example C51_backgrounds_case : Forall (fun s => EnergySpec.well_formed (dp_ce (ex_dspec s))) five.
Proof. apply in_five. exact ex_energy_formed. Qed.

(* What the charge is, in two cases: a rank left alone draws the precharge standby
   current all the time, and in every cycle after the last command the charge
   grows by the standby current of the state the rank is in, and by the closing of
   the rows that auto-precharge closes in that cycle. *)
Theorem C51_left_alone : forall p e w I r t, charge p e w I r [] t == pw_i2n w * cycles_time e t.
Proof. exact idle_charge. Qed.
Print Assumptions C51_left_alone.
Theorem C51_cycle : forall p e w I r cs t, DeviceSpec.well_formed p -> timely p cs t -> (t + 1 < two64)%N -> legal p r cs ->
  exists d d', device_at p r cs t = Some d /\ device_at p r cs (t + 1) = Some d' /\ (open_rows d' <= open_rows d)%nat /\
    charge p e w I r cs (t + 1) == charge p e w I r cs t + standby w I d * es_tCK e + qnat (open_rows d - open_rows d') * closing_charge e w.
Proof. exact charge_step. Qed.
Print Assumptions C51_cycle.
(* One activation with a read, closed after 25 cycles, and one that is still open:
   35 cycles with one bank active, 25 with none, two row cycles less one closing. *)
Example C51_cycle_case :
  (timely (dp_core (ex_dspec DDR4)) short_day 60 /\ legal_history (dp_core (ex_dspec DDR4)) short_day) /\
  let e := dp_ce (ex_dspec DDR4) in let w := ex_vdd2h in
  Qeq_bool (charge (dp_core (ex_dspec DDR4)) e w ex_I 0 short_day 60)
    ((ex_I 1 * 35 + pw_i2n w * 25) * es_tCK e + 2 * (pw_i0 w * 30 - ex_I 1 * 20 - pw_i2n w * 10) * es_tCK e
     + (pw_i4r w - ex_I 16) * (qn (es_bl e) / qn (es_dr e)) * es_tCK e - (pw_ibeta w - pw_i2n w) * 10 * es_tCK e) = true.
Proof. exact (conj short_day_legal short_day_charge). Qed.

(* The precharge counter of a bank: one for every activation, less one while a
   row is open. *)
Theorem C51_precharges : forall p cs t r b, DeviceSpec.well_formed p -> timely p cs t -> legal_history p cs -> (r < ms_ranks p)%nat -> (b < ms_banks p)%nat ->
  exists d sb, device_at p r cs t = Some d /\ nth_error (dv_banks d) b = Some sb /\
    bank_counter p cs t r b K_pre = Some (counted_in p K_act r b cs - (if row_open sb then 1 else 0))%N /\
    (row_open sb = true -> 0 < counted_in p K_act r b cs)%N.
Proof. exact precharges. Qed.
Print Assumptions C51_precharges.
Example C51_precharges_case :
  (timely (dp_core (ex_dspec DDR4)) short_day 60 /\ legal_history (dp_core (ex_dspec DDR4)) short_day) /\
  map (fun b => bank_counter (dp_core (ex_dspec DDR4)) short_day 60 0 b K_pre) [1%nat; 2%nat] = [Some 1%N; Some 0%N].
Proof. split; [exact short_day_legal|vm_compute; reflexivity]. Qed.

(* An object that was used in any way whose commands keep to the rules of the
   device, whatever its interface was asked to do in between. *)
Theorem C51_object : forall p I us t d0 d d' st, views_agree p -> (ms_std (dp_core p) = DDR5 -> es_groups (dp_ce p) = ms_groups (dp_core p)) ->
  DeviceSpec.well_formed (dp_core p) -> EnergySpec.well_formed (dp_ce p) -> backgrounds (dp_ce p) I ->
  dram_new p = Value d0 -> uses_run p us d0 = Returned d ->
  nondecreasing 0 (map op_time (core_ops us)) -> (final_time 0 (map op_time (core_ops us)) <= t)%N ->
  let cs := HistorySpec.commands (core_ops us) in
  timely (dp_core p) cs t -> legal_history (dp_core p) cs -> dram_window p t d = Returned (d', st) ->
  exists en, calc_core_stats p st = Exactly en /\
    en_total en == qsum (fun w => qsum (fun r => qnat (es_devices (dp_ce p)) * (pw_v w * charge (dp_core p) (dp_ce p) w (I w) r cs t)) (seq 0 (ms_ranks (dp_core p)))) (es_domains (dp_ce p)).
Proof. exact object_energy. Qed.
Print Assumptions C51_object.
(* And nothing has to be assumed of the run if the trace also suits the interface:
   the object takes it, answers, and the answer is the charge. *)
Theorem C51_whole_run : forall p I us t d0, views_agree p -> (ms_std (dp_core p) = DDR5 -> es_groups (dp_ce p) = ms_groups (dp_core p)) ->
  EnergySpec.well_formed (dp_ce p) -> backgrounds (dp_ce p) I -> dram_new p = Value d0 -> Forall command_or_query us ->
  nondecreasing 0 (map op_time (core_ops us)) -> (final_time 0 (map op_time (core_ops us)) <= t)%N -> (t * ca_beats (fi_std (dp_if p)) + 64 < two64)%N -> (t * fi_rate (dp_if p) < two64)%N ->
  InterfaceSpec.sizes_ok (dp_if p) -> (fi_std (dp_if p) = LPDDR6 -> fi_groups (dp_if p) = 4%N) ->
  let cs := HistorySpec.commands (core_ops us) in
  DeviceSpec.well_formed (dp_core p) -> timely (dp_core p) cs t -> legal_history (dp_core p) cs -> trace_fits (dp_if p) (no_toggle (dp_sim p)) cs ->
  exists d d' en, uses_run p us d0 = Returned d /\ calc_core p t d = Returned (d', Exactly en) /\
    en_total en == qsum (fun w => qsum (fun r => qnat (es_devices (dp_ce p)) * (pw_v w * charge (dp_core p) (dp_ce p) w (I w) r cs t)) (seq 0 (ms_ranks (dp_core p)))) (es_domains (dp_ce p)).
Proof. exact whole_run. Qed.
Print Assumptions C51_whole_run.
Example C51_whole_run_case : Forall (fun s =>
  views_agree (ex_dspec s) /\ es_groups (dp_ce (ex_dspec s)) = ms_groups (dp_core (ex_dspec s)) /\ EnergySpec.well_formed (dp_ce (ex_dspec s)) /\
  (Forall command_or_query (full_day s) /\ nondecreasing 0 (map op_time (core_ops (full_day s))) /\ (final_time 0 (map op_time (core_ops (full_day s))) <= 1000)%N) /\
  (DeviceSpec.well_formed (dp_core (ex_dspec s)) /\ timely (dp_core (ex_dspec s)) (day_commands s) 1000 /\ legal_history (dp_core (ex_dspec s)) (day_commands s)) /\
  InterfaceSpec.sizes_ok (dp_if (ex_dspec s)) /\ trace_fits (dp_if (ex_dspec s)) true (day_commands s) /\
  match dram_new (ex_dspec s) with Value d0 => match uses_run (ex_dspec s) (full_day s) d0 with Returned _ => true | _ => false end | _ => false end = true) five.
Proof. exact whole_case. Qed.
