(* C45: what an interface puts on the data bus. *)
From Coq Require Import NArith QArith List Bool.
From Verif Require Import Base Command CoreModel Bits BusModel WaveSpec BusProofs ToggleModel ToggleProofs StatsModel InterfaceModel InterfaceSpec WireSpec InterfaceData InterfaceExamples WireExamples.
Import ListNotations.
Local Open Scope N_scope.

(* C45: with real data, whatever a user calls in whatever order, if every call
   returns, the words on the data lines of a direction are those of the bursts of
   this direction: the data of the command, the bytes (LPDDR6: pairs of bytes) the
   inversion rule flags inverted when DBI is on at that moment, for LPDDR6 in the
   frame with the flags and the metadata set last; bursts do not overlap; the
   statistics are those of this waveform; nothing is estimated. *)
Theorem C45_data_bus_counts : forall p i0 xs i t st st',
  sizes_ok p -> iface_new p None = Value i0 ->
  Forall (fun c => cmd_ts c <= t /\ data_ok p c) (commands xs) -> t * fi_rate p < two64 -> calls_run xs i0 = Value i ->
  data_blank st -> if_window i t st = Value st' ->
  let w := N.to_nat (dq_lines p) in
  let wave read := data_drives p read false (0, 0) xs in
  let count read := wrap_stats (wave_stats w (idle_word w (dq_rests_high (fi_std p))) (wave read) (t * fi_rate p)) in
  apart 0 (wave true) /\ apart 0 (wave false) /\
  ss_readBus st' = count true /\ ss_writeBus st' = count false /\ ss_togRead st' = stats0 /\ ss_togWrite st' = stats0.
Proof. exact data_bus_counts. Qed.
Print Assumptions C45_data_bus_counts.
Example C45_data_bus_counts_case :
  Forall (fun s => sizes_ok (spec_of_std s) /\ Forall (fun c => cmd_ts c <= 200 /\ data_ok (spec_of_std s) c) (commands (noisy_day s)) /\
                   exists st, stats_after (spec_of_std s) None (noisy_day s) 200 = Value st /\ ss_readBus st <> stats0 /\ ss_writeBus st <> stats0)
         [DDR4; DDR5; LPDDR4; LPDDR5; LPDDR6].
Proof. exact noisy_days. Qed.
Example C45_words_case :
  data_drives (spec_of_std LPDDR4) true false (0, 0) [Do (cmd_at 20 RD 1 0 9 row1); SetDbi true; Do (cmd_at 40 RD 1 0 9 row1)] =
    [(40, [85; 170; 240; 15; 0; 255; 0; 255]); (80, [85; 170; 240; 15; 0; 0; 0; 0])].
Proof. exact noisy_words. Qed.

(* C45: with toggling rates, the data play no part: the statistics are the
   estimate for the beats that belong to a burst and the beats that do not. *)
Theorem C45_data_bus_estimates : forall p d i0 xs i t st st' rh wh,
  sizes_ok p -> iface_new p (Some d) = Value i0 ->
  high_idle (td_read_idle d) = Some rh -> high_idle (td_write_idle d) = Some wh ->
  (forall read, toggles_in_order (dq_lines p) (fi_rate p) 0 t (burst_lengths p read (commands xs))) -> t * fi_rate p < two64 ->
  calls_run xs i0 = Value i -> data_blank st -> if_window i t st = Value st' ->
  let n := t * fi_rate p in
  let busy read := beats_driven (dq_lines p) (fi_rate p) true (burst_lengths p read (commands xs)) n in
  busy true <= n /\ busy false <= n /\
  ss_readBus st' = stats0 /\ ss_writeBus st' = stats0 /\
  ss_togRead st' = wrap_stats (estimate (dq_lines p) (busy true) (n - busy true) (td_read_rate d) (td_read_duty d) rh) /\
  ss_togWrite st' = wrap_stats (estimate (dq_lines p) (busy false) (n - busy false) (td_write_rate d) (td_write_duty d) wh).
Proof. exact data_bus_estimates. Qed.
Print Assumptions C45_data_bus_estimates.
Example C45_data_bus_estimates_case :
  Forall (fun s => sizes_ok (spec_of_std s) /\
                   (forall read, toggles_in_order (dq_lines (spec_of_std s)) (fi_rate (spec_of_std s)) 0 200 (burst_lengths (spec_of_std s) read (commands (a_day s)))) /\
                   exists st, stats_after (spec_of_std s) (Some half_rates) (a_day s) 200 = Value st /\ ss_togRead st <> stats0 /\ ss_togWrite st <> stats0)
         [DDR4; DDR5; LPDDR4; LPDDR5; LPDDR6].
Proof. exact estimated_days. Qed.
