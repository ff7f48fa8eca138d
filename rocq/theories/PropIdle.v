(* C75: what waiting costs.  When the wires have come to rest and nothing is
   pending any more, every further cycle adds the same to every count and to every
   energy, and what it adds is known from the description of the memory, the states
   its ranks have been left in and, with toggling rates, the idle levels. *)
From Coq Require Import NArith QArith List Bool Lia.
From Verif Require Import Base Command CoreModel Bits WaveSpec ToggleModel StatsModel StatsSpec EnergyModel EnergySpec IfEnergyModel IfEnergySpec InterfaceModel InterfaceSpec InterfaceExamples
  HistorySpec DeviceSpec DramModel DramSpec DramExamples ProgressSpec ProgressExamples ChargeSpec CliModel CliSpec MemSpecModel MemSpecSpec WholeSpec WholeExamples JoinSpec JoinExamples SettleSpec
  WholeProofs FormatProofs IdleSpec IdleProofs IdleEnd IdleExamples.
Import ListNotations.
Local Open Scope N_scope.

(* The wires are quiet five cycles after the last command, or when the longest
   burst is over, if that is later. *)
Theorem C75_quiet_soon : forall p bus cs B T, 0 < fi_rate p -> nondecreasing 0 (map cmd_ts cs) ->
  Forall (fun c => transfers (cmd_type c) <> None -> burst_cycles p bus c < B) cs ->
  ends cs + B <= T -> ends cs + 5 <= T -> quiet p bus cs T.
Proof. exact quiet_soon. Qed.
Print Assumptions C75_quiet_soon.
Example C75_quiet_soon_case : forall s, let p := spec_of_std s in let cs := [cmd_at 0 ACT 0 3 0 []; cmd_at 20 RD 0 0 9 row1] in
  0 < fi_rate p /\ nondecreasing 0 (map cmd_ts cs) /\ Forall (fun c => transfers (cmd_type c) <> None -> burst_cycles p true c < 40) cs /\ ends cs + 40 <= 60.
Proof.
  intros s. cbv zeta. split; [destruct s; reflexivity|]. split; [cbn; lia|]. split; [|vm_compute; discriminate].
  repeat constructor; intros _; destruct s; vm_compute; reflexivity.
Qed.

(* Every group of wires: the clocks go on, the other lines stay where they are. *)
Theorem C75_counts : forall p sim cs T n, quiet p (no_toggle sim) cs T ->
  forall g, wire_counts p sim cs (T + n) g = WaveSpec.add_exact (wire_counts p sim cs T g) (idle_counts p sim n g).
Proof. exact waiting_counts. Qed.
Print Assumptions C75_counts.

(* What the interface reports when it is asked at T and at T + n. *)
Theorem C75_statistics : forall p e sim i0 i cs T n, InterfaceSpec.sizes_ok p -> (fi_std p = LPDDR6 -> fi_groups p = 4) -> sim_good sim -> iface_new p sim = Value i0 ->
  trace_fits p (no_toggle sim) cs -> calm p e sim cs T -> quiet p (no_toggle sim) cs T -> countable p (T + n) -> calls_run (map Do cs) i0 = Value i ->
  exists st st', if_window i T sim_stats0 = Value st /\ if_window i (T + n) sim_stats0 = Value st' /\
    ss_clock st' = WaveSpec.add_exact (ss_clock st) (idle_counts p sim n CK) /\
    (two_clocks (fi_std p) = true -> ss_wClock st' = WaveSpec.add_exact (ss_wClock st) (idle_counts p sim n WCK)) /\
    ss_commandBus st' = WaveSpec.add_exact (ss_commandBus st) (idle_counts p sim n CA) /\
    match sim with
    | None => ss_readBus st' = WaveSpec.add_exact (ss_readBus st) (idle_counts p sim n RDQ) /\ ss_writeBus st' = WaveSpec.add_exact (ss_writeBus st) (idle_counts p sim n WDQ)
    | Some _ => ss_togRead st' = WaveSpec.add_exact (ss_togRead st) (idle_counts p sim n RDQ) /\ ss_togWrite st' = WaveSpec.add_exact (ss_togWrite st) (idle_counts p sim n WDQ)
    end /\
    ss_readDQS st' = ss_readDQS st /\ (two_clocks (fi_std p) = false -> ss_writeDQS st' = ss_writeDQS st).
Proof. exact waiting_statistics. Qed.
Print Assumptions C75_statistics.
(* With words on the lines, and with toggling rates. *)
Example C75_statistics_case : forall s, exists m, mem_new (ex_whole s) = Value m /\ let p := interface_view m ex_grow None in
  Forall (fun sim => trace_fits p (no_toggle sim) run_commands /\ calm p (ifenergy_view m) sim run_commands 400) [None; toggle_sim] /\
  quiet p true run_commands 400 /\ countable p (400 + 400).
Proof.
  intros s. destruct (run_meets s) as (m & M & _ & _ & _ & A & B). destruct (run_capable s) as (m' & M' & _ & _ & _ & _ & Q & _ & _ & C).
  rewrite M in M'. apply FormatProofs.value_inj in M'. subst m'. exists m. split; [exact M|]. cbv zeta. split; [apply Forall_cons; [exact A|apply Forall_cons; [exact B|apply Forall_nil]]|]. split; assumption.
Qed.

(* Unless the toggling rates name the other level, the lines are left at the level
   that costs nothing: only the clocks cost anything. *)
Theorem C75_only_clocks : forall p e g, is_clock g = false -> (idle_static p e None g == 0 /\ idle_dynamic p e g == 0)%Q.
Proof. exact idle_free. Qed.
Print Assumptions C75_only_clocks.
(* Data lines that are said to idle at the burning level. *)
Example C75_only_clocks_case : let p := spec_of_std DDR4 in
  wasted p None RDQ = 0 /\ wasted p (Some (mkToggle (1#2) (1#2) TogL (1#2) (1#2) TogH)) RDQ = dq_lines p * fi_rate p /\
  wasted p (Some (mkToggle (1#2) (1#2) TogL (1#2) (1#2) TogH)) WDQ = 0 /\ wasted p None CK = 2 /\ dq_lines p * fi_rate p <> 0.
Proof. vm_compute. repeat split. discriminate. Qed.

(* What the program prints when the end of a trace is put off from T to t. *)
Theorem C75_program : forall p I cs c1 c2 T t text1 text2, capable p -> backgrounds (dp_ce p) I ->
  end_at c1 T -> end_at c2 t -> T <= t -> cmd_rank c2 = cmd_rank c1 -> ends cs + tmax (dp_core p) <= T -> quiet (dp_if p) (no_toggle (dp_sim p)) cs T ->
  soundly p (cs ++ [c1]) -> t + tmax (dp_core p) < two64 -> countable (dp_if p) t -> command_ok (dp_if p) (no_toggle (dp_sim p)) c2 ->
  parse_command_list text1 = Value (Some (cs ++ [c1])) -> parse_command_list text2 = Value (Some (cs ++ [c2])) ->
  exists en1 ie1 en2 ie2 a1 a2, program p text1 = Printed (Exactly en1) (Exactly ie1) (Exactly a1) /\ program p text2 = Printed (Exactly en2) (Exactly ie2) (Exactly a2) /\
    (en_total en2 == en_total en1 + qn (t - T) * (es_tCK (dp_ce p) * resting_power (dp_core p) (dp_ce p) I cs T))%Q /\
    (forall s, (statics ie2 s == statics ie1 s + qn (t - T) * qsum (idle_static (dp_if p) (dp_ie p) (dp_sim p)) (driven_groups (dp_if p) s) /\
                dynamics ie2 s == dynamics ie1 s + qn (t - T) * qsum (idle_dynamic (dp_if p) (dp_ie p)) (driven_groups (dp_if p) s))%Q) /\
    (a2 == a1 + qn (t - T) * (es_tCK (dp_ce p) * resting_power (dp_core p) (dp_ce p) I cs T + idle_cost (dp_if p) (dp_ie p) (dp_sim p)))%Q.
Proof. exact waiting_energy. Qed.
Print Assumptions C75_program.
Example C75_program_case : forall s, exists m, mem_new (ex_whole s) = Value m /\ let p := views m None ex_grow None in
  capable p /\ end_at (stop 400) 400 /\ end_at (stop 1000) 1000 /\ ends work + tmax (dp_core p) <= 400 /\ quiet (dp_if p) true work 400 /\
  soundly p (work ++ [stop 400]) /\ 1000 + tmax (dp_core p) < two64 /\ countable (dp_if p) 1000 /\ command_ok (dp_if p) true (stop 1000).
Proof. exact long_wait. Qed.
Example C75_program_text : parse_command_list (lines_text run_lines) = Value (Some (work ++ [stop 400])) /\
  parse_command_list (lines_text long_lines) = Value (Some (work ++ [stop 1000])).
Proof. exact long_read. Qed.

(* The traces that end sooner and later are taken by the same right. *)
Theorem C75_ends_later : forall p cs c1 c2 T t, end_at c1 T -> end_at c2 t -> T <= t -> soundly p (cs ++ [c1]) -> cmd_rank c2 = cmd_rank c1 ->
  t + tmax (dp_core p) < two64 -> countable (dp_if p) t -> command_ok (dp_if p) (no_toggle (dp_sim p)) c2 -> soundly p (cs ++ [c2]).
Proof. exact end_later. Qed.
Print Assumptions C75_ends_later.
Example C75_ends_later_case : forall s, exists m, mem_new (ex_whole s) = Value m /\ let p := views m None ex_grow None in
  soundly p (work ++ [stop 400]) /\ cmd_rank (stop 1000) = cmd_rank (stop 400) /\ 1000 + tmax (dp_core p) < two64 /\ countable (dp_if p) 1000 /\ command_ok (dp_if p) true (stop 1000).
Proof.
  intros s. destruct (long_wait s) as (m & M & _ & _ & _ & _ & _ & A & B & C & D). exists m. split; [exact M|]. cbv zeta. split; [exact A|]. split; [reflexivity|]. split; [exact B|]. split; assumption.
Qed.
