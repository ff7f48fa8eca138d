(* Properties C01, C04, C05, C06, C07, C10, C11 of the five cores. *)
From Coq Require Import NArith List Bool Sorting.Sorted.
From Verif Require Import Base Command CoreModel HistorySpec CoreHistory CoreBounds ExampleCores CoreRefuted.
Import ListNotations.
Local Open Scope N_scope.

(* C01: after any accepted history (no order of timestamps assumed) every
   counter getWindowStats shows for a bank, except the precharge counter, is the
   number of commands of the history to be counted for that bank. *)
Theorem C01_counters_equal_history :
  forall p cs s t r b k,
    k <> K_pre -> (r < ms_ranks p)%nat -> (b < ms_banks p)%nat ->
    run_core p cs (core_new p) = Ok s ->
    exists st, shown_bank p (snd (window_stats p t s)) r b = Some st /\
               cs_get k (bs_counter st) = counted_in p k r b cs mod two64.
Proof. exact counters_equal_history. Qed.
Print Assumptions C01_counters_equal_history.

Example C01_witness :
  exists s, run_core ex_ddr5 ex_hist5 (core_new ex_ddr5) = Ok s /\
            counted_in ex_ddr5 K_refSameBank 0 2 ex_hist5 = 1 /\
            counted_in ex_ddr5 K_act 0 1 ex_hist5 = 1.
Proof. vm_compute. eexists; repeat split. Qed.

(* C04: queries inserted anywhere in a history with non-decreasing times change
   no later result, and the history with queries runs exactly when the history
   without them does. *)
Theorem C04_queries_are_pure :
  forall p os s0 s answers t,
    nondecreasing 0 (map op_time os) ->
    run_ops p os s0 = Ok (s, answers) ->
    final_time 0 (map op_time os) <= t ->
    exists s', run_core p (commands os) s0 = Ok s' /\
               snd (window_stats p t s) = snd (window_stats p t s').
Proof. exact queries_do_not_matter. Qed.
Print Assumptions C04_queries_are_pure.

Theorem C04_queries_never_break_a_history :
  forall p os s0 s',
    nondecreasing 0 (map op_time os) ->
    run_core p (commands os) s0 = Ok s' ->
    exists s answers, run_ops p os s0 = Ok (s, answers).
Proof. exact queries_never_break. Qed.
Print Assumptions C04_queries_never_break_a_history.

Theorem C04_query_repeatable :
  forall p t s,
    snd (window_stats p t (fst (window_stats p t s))) = snd (window_stats p t s).
Proof. exact query_repeat. Qed.
Print Assumptions C04_query_repeatable.

Example C04_witness :
  nondecreasing 0 (map op_time ex_ops) /\
  exists s a, run_ops ex_ddr4 ex_ops (core_new ex_ddr4) = Ok (s, a) /\ length a = 2%nat.
Proof. vm_compute. repeat split; try discriminate. do 2 eexists; repeat split. Qed.

(* getLastCommandTime, unlike the statistics, is changed by a query: after RDA
   at 10 it is 10, after a query at 100 it is the time of the auto-precharge.
   Hence getStats(), which queries at getLastCommandTime(), is not pure. *)
Theorem C04_last_command_time_refuted :
  exists p cs s t,
    nondecreasing 0 (map cmd_ts cs) /\ final_time 0 (map cmd_ts cs) <= t /\
    run_core p cs (core_new p) = Ok s /\
    get_last_command_time (fst (window_stats p t s)) <> get_last_command_time s.
Proof. exact last_command_time_query. Qed.
Print Assumptions C04_last_command_time_refuted.

(* C05: for every sequence of schedule and run-due operations each request is
   either in the log of executed requests or still queued, and requests with the
   same timestamp stay in request order (so also each appears exactly once). *)
Theorem C05_exactly_once_and_fifo :
  forall (A : Type) (os : list (sched_op A)) q log ts,
    run_sched os [] [] = (q, log) ->
    at_time ts (log ++ q) = at_time ts (requests os).
Proof. exact sched_fifo. Qed.
Print Assumptions C05_exactly_once_and_fifo.

(* Running what is due at t executes, in time order, exactly the queued
   requests with timestamp at most t. *)
Theorem C05_run_due_is_exact :
  forall (A : Type) (os : list (sched_op A)) t q log q1 log1,
    run_sched os [] [] = (q, log) ->
    run_sched (os ++ [RunDue t]) [] [] = (q1, log1) ->
    exists ran, log1 = log ++ ran /\ q = ran ++ q1 /\
      Forall (fun e => fst e <= t) ran /\ Forall (fun e => t < fst e) q1 /\
      StronglySorted (fun a b => fst a <= fst b) ran.
Proof. exact @run_sched_drain. Qed.
Print Assumptions C05_run_due_is_exact.

(* If nothing is requested for a time already passed, the whole execution is in
   time order. *)
Theorem C05_time_order :
  forall (A : Type) (os : list (sched_op A)) q log,
    not_in_the_past 0 os -> run_sched os [] [] = (q, log) ->
    StronglySorted (fun a b => fst a <= fst b) (log ++ q).
Proof. exact sched_time_order. Qed.
Print Assumptions C05_time_order.

(* The handlers of the cores never request a time already passed. *)
Theorem C05_cores_never_schedule_in_the_past :
  forall p c s s' e,
    cmd_ts c + tmax p < two64 -> do_command p c s = Ok s' ->
    In e (co_queue s') -> In e (co_queue s) \/ cmd_ts c <= fst e.
Proof. exact schedule_after. Qed.
Print Assumptions C05_cores_never_schedule_in_the_past.

(* What processImplicitCommandQueue does to the ranks is what the log says. *)
Theorem C05_execution_follows_log :
  forall p t s,
    let '(q, ran, _) := ich_process (fun ts x l => l ++ [(ts, x)]) t (co_queue s) [] 0 in
    co_queue (process_queue p t s) = q /\
    co_ranks (process_queue p t s) =
      fold_left (fun rs e => upd (fst (snd e)) (exec_ric p (fst e) (snd (snd e))) rs) ran (co_ranks s).
Proof. exact process_follows_log. Qed.
Print Assumptions C05_execution_follows_log.

Example C05_witness :
  not_in_the_past 0 ex_sched /\
  run_sched ex_sched [] [] = ([(9, 3%nat)], [(4, 2%nat); (5, 1%nat); (5, 4%nat)]).
Proof. vm_compute. repeat split; discriminate. Qed.

(* C06 *)
Theorem C06_ranks_independent :
  forall p r cs s t,
    (r < ms_ranks p)%nat ->
    nondecreasing 0 (map cmd_ts cs) -> final_time 0 (map cmd_ts cs) <= t ->
    run_core p cs (core_new p) = Ok s ->
    exists s', run_core p (filter (to_rank r) cs) (core_new p) = Ok s' /\
      shown_rank (snd (window_stats p t s)) r = shown_rank (snd (window_stats p t s')) r /\
      (forall b, (b < ms_banks p)%nat ->
        shown_bank p (snd (window_stats p t s)) r b = shown_bank p (snd (window_stats p t s')) r b).
Proof. exact rank_isolation. Qed.
Print Assumptions C06_ranks_independent.

Example C06_witness :
  nondecreasing 0 (map cmd_ts ex_two_ranks) /\
  length (filter (to_rank 1) ex_two_ranks) = 2%nat /\
  exists s, run_core ex_ddr4 ex_two_ranks (core_new ex_ddr4) = Ok s.
Proof. vm_compute. repeat split; try discriminate. eexists; reflexivity. Qed.

(* C07: compared with the state in which everything due before the command has
   run, a command changes no bank outside its footprint and no other rank, and
   schedules nothing for other ranks or for banks outside its footprint. *)
Theorem C07_other_ranks_untouched :
  forall p c s s' r,
    do_command p c s = Ok s' -> r <> N.to_nat (cmd_rank c) ->
    nth_error (co_ranks s') r = nth_error (co_ranks (process_queue p (cmd_ts c) s)) r.
Proof. exact frame_rank. Qed.
Print Assumptions C07_other_ranks_untouched.

Theorem C07_other_banks_untouched :
  forall p cs s0 c s s' r b,
    run_core p cs (core_new p) = Ok s0 -> s = s0 ->
    do_command p c s = Ok s' ->
    (r = N.to_nat (cmd_rank c) -> footprint p c b = false) ->
    bank_at s' r b = bank_at (process_queue p (cmd_ts c) s) r b.
Proof. exact frame_bank_reachable. Qed.
Print Assumptions C07_other_banks_untouched.

Theorem C07_nothing_scheduled_elsewhere :
  forall p c s s' ts r x,
    do_command p c s = Ok s' -> In (ts, (r, x)) (co_queue s') ->
    In (ts, (r, x)) (co_queue s) \/
    (r = N.to_nat (cmd_rank c) /\ forall b, ri_bank x = Some b -> footprint p c b = true).
Proof. exact frame_queue. Qed.
Print Assumptions C07_nothing_scheduled_elsewhere.

Example C07_witness :
  exists s s', run_core ex_ddr5 ex_hist5 (core_new ex_ddr5) = Ok s /\
    do_command ex_ddr5 (at_ 900 REFSB 0 1) s = Ok s' /\
    footprint ex_ddr5 (at_ 900 REFSB 0 1) 3 = true /\
    footprint ex_ddr5 (at_ 900 REFSB 0 1) 2 = false.
Proof. vm_compute. do 2 eexists; repeat split. Qed.

(* C10: the shown counts never exceed the query time, and one cycle later each
   has grown by at most one. *)
Theorem C10_rank_counts_bounded :
  forall p cs t s r c c',
    nondecreasing 0 (map cmd_ts cs) -> no_overflow p (map cmd_ts cs) ->
    final_time 0 (map cmd_ts cs) <= t -> t + 1 < two64 ->
    run_core p cs (core_new p) = Ok s ->
    shown_rank (snd (window_stats p t s)) r = Some c ->
    shown_rank (snd (window_stats p (t + 1) s)) r = Some c' ->
    Forall (fun x => x <= t) (shown_counts c) /\
    Forall2 (fun x y => y <= x + 1) (shown_counts c) (shown_counts c').
Proof. exact rank_counts_bounded. Qed.
Print Assumptions C10_rank_counts_bounded.

Theorem C10_bank_counts_bounded :
  forall p cs t s r b c c',
    nondecreasing 0 (map cmd_ts cs) -> no_overflow p (map cmd_ts cs) ->
    final_time 0 (map cmd_ts cs) <= t -> t + 1 < two64 -> (b < ms_banks p)%nat ->
    run_core p cs (core_new p) = Ok s ->
    shown_bank p (snd (window_stats p t s)) r b = Some c ->
    shown_bank p (snd (window_stats p (t + 1) s)) r b = Some c' ->
    Forall (fun x => x <= t) (shown_counts (bs_cycles c)) /\
    Forall2 (fun x y => y <= x + 1) (shown_counts (bs_cycles c)) (shown_counts (bs_cycles c')).
Proof. exact bank_counts_bounded. Qed.
Print Assumptions C10_bank_counts_bounded.

Example C10_witness :
  nondecreasing 0 (map cmd_ts ex_hist5) /\ no_overflow ex_ddr5 (map cmd_ts ex_hist5) /\
  exists s c, run_core ex_ddr5 ex_hist5 (core_new ex_ddr5) = Ok s /\
    shown_rank (snd (window_stats ex_ddr5 850 s)) 0 = Some c /\ cy_act c <> 0.
Proof.
  split; [vm_compute; repeat split; discriminate|]. split; [repeat constructor|].
  do 2 eexists. split; [vm_compute; reflexivity|]. split; [vm_compute; reflexivity|].
  vm_compute; discriminate.
Qed.

(* That the counts never decrease fails for histories that break the protocol:
   a second power-down entry restarts the running interval and drops its
   cycles. *)
Theorem C10_monotone_refuted :
  exists p cs t s c c',
    nondecreasing 0 (map cmd_ts cs) /\ no_overflow p (map cmd_ts cs) /\
    final_time 0 (map cmd_ts cs) <= t /\
    run_core p cs (core_new p) = Ok s /\
    shown_rank (snd (window_stats p t s)) 0 = Some c /\
    shown_rank (snd (window_stats p (t + 1) s)) 0 = Some c' /\
    cy_pda c' < cy_pda c.
Proof. exact counts_can_decrease. Qed.
Print Assumptions C10_monotone_refuted.

(* C11 *)
Theorem C11_last_time_is_latest_executed :
  forall p os s answers,
    nondecreasing 0 (map op_time os) -> no_overflow p (map op_time os) ->
    run_ops p os (core_new p) = Ok (s, answers) ->
    get_last_command_time s = max_time (executed_times p os (core_new p)).
Proof. exact last_time. Qed.
Print Assumptions C11_last_time_is_latest_executed.

Theorem C11_last_time_after_commands :
  forall p cs s,
    nondecreasing 0 (map cmd_ts cs) ->
    run_core p cs (core_new p) = Ok s ->
    get_last_command_time s = final_time 0 (map cmd_ts cs).
Proof. exact last_time_commands. Qed.
Print Assumptions C11_last_time_after_commands.

Theorem C11_last_time_never_decreases :
  forall p os o s a s' a',
    nondecreasing 0 (map op_time (os ++ [o])) -> no_overflow p (map op_time (os ++ [o])) ->
    run_ops p os (core_new p) = Ok (s, a) ->
    run_ops p (os ++ [o]) (core_new p) = Ok (s', a') ->
    get_last_command_time s <= get_last_command_time s'.
Proof. exact last_time_monotone. Qed.
Print Assumptions C11_last_time_never_decreases.

Example C11_witness :
  nondecreasing 0 (map op_time ex_ops) /\ no_overflow ex_ddr4 (map op_time ex_ops) /\
  exists s a, run_ops ex_ddr4 ex_ops (core_new ex_ddr4) = Ok (s, a) /\
              get_last_command_time s = 100.
Proof.
  split; [vm_compute; repeat split; discriminate|]. split; [repeat constructor|].
  do 2 eexists. split; [vm_compute; reflexivity|]. vm_compute; reflexivity.
Qed.
