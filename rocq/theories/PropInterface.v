(* C43 and C44: what an interface puts on the command bus, strobes and clocks. *)
From Coq Require Import NArith QArith List Bool.
From Verif Require Import Base Command CoreModel Bits BusModel WaveSpec BusProofs ClockProofs BitFacts ToggleModel StatsModel InterfaceModel InterfaceSpec InterfaceTop InterfaceExamples InterfaceRefuted InterfaceExact.
Import ListNotations.
Local Open Scope N_scope.

(* C43: whatever a user calls in whatever order, if every call returns, the words
   driven onto the command bus are those of the commands, they do not overlap, and
   the statistics up to any cycle no command comes after are those of the waveform
   of these words.  The words depend on no earlier command. *)
Theorem C43_command_bus_counts : forall p sim i0 xs i t,
  sizes_ok p -> (fi_std p = LPDDR6 -> fi_groups p = 4) -> iface_new p sim = Value i0 ->
  Forall (fun c => cmd_ts c <= t /\ cmd_ts c + burst_cycles p (no_toggle sim) c < two64) (commands xs) ->
  t * ca_beats (fi_std p) + 64 < two64 -> calls_run xs i0 = Value i ->
  apart 0 (ca_drives p (no_toggle sim) (commands xs)) /\
  bus_get_stats (if_cmd i) t =
    Value (wrap_stats (wave_stats (ca_pins (fi_std p)) (idle_word (ca_pins (fi_std p)) (ca_rests_high (fi_std p)))
                                  (ca_drives p (no_toggle sim) (commands xs)) (t * ca_beats (fi_std p)))).
Proof. exact command_bus_counts. Qed.
Print Assumptions C43_command_bus_counts.
Example C43_command_bus_counts_case :
  Forall (fun s => sizes_ok (spec_of_std s) /\ (fi_std (spec_of_std s) = LPDDR6 -> fi_groups (spec_of_std s) = 4) /\
                   (exists i0 i, iface_new (spec_of_std s) None = Value i0 /\ calls_run (a_day s) i0 = Value i) /\
                   Forall (fun c => cmd_ts c <= 200 /\ cmd_ts c + burst_cycles (spec_of_std s) true c < two64) (commands (a_day s)))
         [DDR4; DDR5; LPDDR4; LPDDR5; LPDDR6].
Proof. exact day_runs. Qed.
Example C43_words_case :
  ca_drives (spec_of_std LPDDR4) true [cmd_at 20 RD 1 0 9 row1; cmd_at 30 PRE 5 0 0 []] = [(20, [16; 32; 18; 0]); (30, [2; 40])].
Proof. exact words_shown. Qed.

(* C44: the strobes run for exactly the cycles of the bursts. *)
Theorem C44_strobes_count : forall p sim i0 xs i t st st',
  sizes_ok p -> (fi_std p = LPDDR6 -> fi_groups p = 4) -> iface_new p sim = Value i0 ->
  Forall (command_ok p (no_toggle sim)) (commands xs) -> calls_run xs i0 = Value i -> if_window i t st = Value st' ->
  forall half, dqs_rate p = 2 * half -> t * (2 * half) < two64 -> t < two64 ->
  (bursts_in_order p (no_toggle sim) wants_read 0 t (commands xs) ->
   ss_readDQS st' = wrap_stats (scale (strobe_lines p) (periods half (total_cycles p (no_toggle sim) wants_read (commands xs))))) /\
  (two_clocks (fi_std p) = false -> bursts_in_order p (no_toggle sim) negb 0 t (commands xs) ->
   ss_writeDQS st' = wrap_stats (scale (strobe_lines p) (periods half (total_cycles p (no_toggle sim) negb (commands xs))))).
Proof. exact strobes_count. Qed.
Print Assumptions C44_strobes_count.
Example C44_strobes_count_case :
  Forall (fun s => Forall (command_ok (spec_of_std s) true) (commands (a_day s)) /\
                   bursts_in_order (spec_of_std s) true wants_read 0 200 (commands (a_day s)) /\
                   bursts_in_order (spec_of_std s) true negb 0 200 (commands (a_day s)) /\
                   exists st, stats_after (spec_of_std s) None (a_day s) 200 = Value st /\ ss_readDQS st <> stats0)
         [DDR4; DDR5; LPDDR4; LPDDR5; LPDDR6].
Proof. exact day_strobes. Qed.
(* A strobe is counted for the whole burst even when the window ends before it. *)
Theorem C44_strobe_in_flight_refuted : exists p xs t i0 i st,
  sizes_ok p /\ iface_new p None = Value i0 /\ calls_run xs i0 = Value i /\ Forall (fun c => cmd_ts c < t) (commands xs) /\
  dqs_rate p = 2 * 1 /\ if_window i t sim_stats0 = Value st /\
  ss_readDQS st <> scale (strobe_lines p) (periods 1 (running_cycles false (strobe p true wants_read (commands xs)) t)).
Proof. exact strobe_in_flight. Qed.
Print Assumptions C44_strobe_in_flight_refuted.
(* What is counted instead, whatever the window and however the bursts overlap: the
   cycles of all bursts commanded so far, each in full. *)
Theorem C44_strobes_exact : forall p sim i0 xs i t st st',
  sizes_ok p -> (fi_std p = LPDDR6 -> fi_groups p = 4) -> iface_new p sim = Value i0 ->
  Forall (command_ok p (no_toggle sim)) (commands xs) -> calls_run xs i0 = Value i -> if_window i t st = Value st' ->
  forall half, dqs_rate p = 2 * half ->
  Forall (fun c => burst_cycles p (no_toggle sim) c * (2 * half) < two64) (commands xs) ->
  ss_readDQS st' = wrap_stats (scale (strobe_lines p) (periods half (total_cycles p (no_toggle sim) wants_read (commands xs)))) /\
  (two_clocks (fi_std p) = false ->
   ss_writeDQS st' = wrap_stats (scale (strobe_lines p) (periods half (total_cycles p (no_toggle sim) negb (commands xs))))).
Proof. exact strobes_exact. Qed.
Print Assumptions C44_strobes_exact.
Theorem C44_wck_exact : forall p sim i0 xs i t st st',
  sizes_ok p -> (fi_std p = LPDDR6 -> fi_groups p = 4) -> iface_new p sim = Value i0 ->
  Forall (command_ok p (no_toggle sim)) (commands xs) -> calls_run xs i0 = Value i -> if_window i t st = Value st' ->
  forall half, two_clocks (fi_std p) = true -> fi_rate p / fi_wck p = 2 * half -> fi_wck_on p = false ->
  Forall (fun c => burst_cycles p (no_toggle sim) c * (2 * half) < two64) (commands xs) ->
  ss_wClock st' = wrap_stats (scale 2 (periods half (total_cycles p (no_toggle sim) wants_any (commands xs)))).
Proof. exact wck_exact. Qed.
Print Assumptions C44_wck_exact.
Example C44_exact_case :
  fi_wck_on (spec_of_std LPDDR6) = false /\ dqs_rate (spec_of_std LPDDR6) = 2 * 1 /\ fi_rate (spec_of_std LPDDR6) / fi_wck (spec_of_std LPDDR6) = 2 * 1 /\
  Forall (command_ok (spec_of_std LPDDR6) true) (commands overlap) /\
  Forall (fun c => burst_cycles (spec_of_std LPDDR6) true c * (2 * 1) < two64) (commands overlap) /\
  total_cycles (spec_of_std LPDDR6) true wants_any (commands overlap) = 24 /\
  total_cycles (spec_of_std LPDDR6) true wants_read (commands overlap) = 12 /\
  running_cycles false (strobe (spec_of_std LPDDR6) true wants_any (commands overlap)) 40 <> 24 /\
  overlap_okb 40 = true /\ overlap_okb 23 = true.
Proof. exact overlap_runs. Qed.
(* WCK runs all the time, or for the cycles of the bursts. *)
Theorem C44_wck_counts : forall p sim i0 xs i t st st',
  sizes_ok p -> (fi_std p = LPDDR6 -> fi_groups p = 4) -> iface_new p sim = Value i0 ->
  Forall (command_ok p (no_toggle sim)) (commands xs) -> calls_run xs i0 = Value i -> if_window i t st = Value st' ->
  forall half, two_clocks (fi_std p) = true -> fi_rate p / fi_wck p = 2 * half -> t * (2 * half) < two64 -> t < two64 ->
  (fi_wck_on p = true -> in_order 0 t (switching true xs) ->
   ss_wClock st' = wrap_stats (scale 2 (periods half (running_cycles true (switching true xs) t)))) /\
  (fi_wck_on p = false -> bursts_in_order p (no_toggle sim) wants_any 0 t (commands xs) ->
   ss_wClock st' = wrap_stats (scale 2 (periods half (total_cycles p (no_toggle sim) wants_any (commands xs))))).
Proof. exact wck_counts. Qed.
Print Assumptions C44_wck_counts.
Example C44_wck_counts_case :
  (fi_wck_on (spec_of_std LPDDR5) = true /\ in_order 0 200 (switching true (a_day LPDDR5))) /\
  (fi_wck_on (spec_of_std LPDDR6) = false /\ bursts_in_order (spec_of_std LPDDR6) true wants_any 0 200 (commands (a_day LPDDR6))) /\
  total_cycles (spec_of_std LPDDR6) true wants_any (commands (a_day LPDDR6)) = 24.
Proof. exact day_wck. Qed.
(* With data rate 2 and a ratio of 4 the clock that is always on never moves: the
   quotient of the two is 0. *)
Theorem C44_wck_stands_still_refuted : exists p xs i0 i st,
  sizes_ok p /\ two_clocks (fi_std p) = true /\ fi_wck_on p = true /\ 0 < fi_rate p /\ 0 < fi_wck p /\
  iface_new p None = Value i0 /\ calls_run xs i0 = Value i /\ if_window i 200 sim_stats0 = Value st /\ ss_wClock st = stats0.
Proof. exact wck_stands_still. Qed.
Print Assumptions C44_wck_stands_still_refuted.
(* The command clock runs in every cycle in which the interface is enabled. *)
Theorem C44_clock_counts : forall p sim i0 xs i t st st',
  sizes_ok p -> (fi_std p = LPDDR6 -> fi_groups p = 4) -> iface_new p sim = Value i0 ->
  Forall (command_ok p (no_toggle sim)) (commands xs) -> calls_run xs i0 = Value i -> if_window i t st = Value st' ->
  in_order 0 t (switching true xs) -> t * 2 < two64 ->
  ss_clock st' = wrap_stats (scale 2 (periods 1 (running_cycles true (switching true xs) t))).
Proof. exact clock_counts_top. Qed.
Print Assumptions C44_clock_counts.
Example C44_clock_counts_case :
  in_order 0 200 (switching true (a_day LPDDR6)) /\ running_cycles true (switching true (a_day LPDDR6)) 200 = 190.
Proof. exact day_clock. Qed.
