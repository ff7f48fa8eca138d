(* C35: the pre- and postambles of the DDR4 strobe. *)
From Coq Require Import NArith QArith List Bool.
From Verif Require Import Base Command CoreModel Bits StatsModel EnergyModel IfEnergyModel IfEnergySpec InterfaceModel InterfaceSpec InterfaceExamples
  AmbleSpec AmbleProofs DramModel DramSpec DramExamples AmbleTop.
Import ListNotations.
Local Open Scope N_scope.

(* Whatever a user calls in whatever order, if every call returns, no burst of a
   rank has started before the previous one of its direction has ended, and the
   seamless bursts counted are those that start in the cycle in which the previous
   one has ended, plus a first burst in cycle 0.  Nothing is ever merged. *)
Theorem C35_seamless_counts_partial : forall p sim i0 xs i t st st' rank,
  InterfaceSpec.sizes_ok p -> fi_std p = DDR4 -> iface_new p sim = Value i0 ->
  Forall (fun c => cmd_ts c + burst_cycles p (no_toggle sim) c < two64) (commands xs) -> calls_run xs i0 = Value i -> if_window i t st = Value st' ->
  (rank < fi_ranks p)%nat ->
  let bursts read := rank_bursts p (no_toggle sim) read rank (commands xs) in
  let seamless read := (back_to_back (bursts read) + at_zero (bursts read)) mod two64 in
  bursts_apart (bursts true) /\ bursts_apart (bursts false) /\
  option_map cs_prepos (nth_error (ss_rank st') rank) = Some (mkPrepos 0 0 0 0 (seamless true) (seamless false)).
Proof. exact seamless_counts. Qed.
Print Assumptions C35_seamless_counts_partial.
Example C35_seamless_counts_case :
  InterfaceSpec.sizes_ok (spec_of_std DDR4) /\ Forall (fun c => cmd_ts c + burst_cycles (spec_of_std DDR4) true c < two64) (commands (iface_calls amble_day)) /\
  rank_bursts (spec_of_std DDR4) true true 0 (commands (iface_calls amble_day)) = [(20, 4); (24, 4); (29, 4)].
Proof. exact amble_day_ok. Qed.
Example C35_seamless_counts_run : exists d0 d d' st, dram_new (ex_dspec DDR4) = Value d0 /\ uses_run (ex_dspec DDR4) amble_day d0 = Returned d /\
  dram_window (ex_dspec DDR4) 100 d = Returned (d', st) /\ map cs_prepos (ss_rank st) = [mkPrepos 0 0 0 0 1 0].
Proof. exact amble_day_runs. Qed.

(* A first burst in cycle 0 is counted as seamless. *)
Theorem C35_first_burst_refuted : exists p us t d0 d d' st,
  is_std (dp_ie p) = DDR4 /\ dram_new p = Value d0 /\ uses_run p us d0 = Returned d /\ dram_window p t d = Returned (d', st) /\
  rank_bursts (dp_if p) true true 0 (commands (iface_calls us)) = [(0, 4)] /\ map cs_prepos (ss_rank st) = [mkPrepos 0 0 0 0 1 0].
Proof. exact first_burst_seamless. Qed.
Print Assumptions C35_first_burst_refuted.

(* Bursts one cycle apart, whose pre- and postamble overlap, are not counted as
   merged. *)
Theorem C35_merged_refuted : exists p us t d0 d d' st,
  is_std (dp_ie p) = DDR4 /\ dram_new p = Value d0 /\ uses_run p us d0 = Returned d /\ dram_window p t d = Returned (d', st) /\
  rank_bursts (dp_if p) true true 0 (commands (iface_calls us)) = [(20, 4); (25, 4)] /\ map cs_prepos (ss_rank st) = [pp_zero].
Proof. exact overlap_not_merged. Qed.
Print Assumptions C35_merged_refuted.

(* The energy calculation takes the bursts from the counters of the ranks, which
   are zero in the statistics of every DRAM object at every time. *)
Theorem C35_no_bursts_in_ranks : forall p t d d' st s, dram_window p t d = Returned (d', st) -> total_over_ranks (bursts s) st = 0.
Proof. exact no_bursts_in_ranks. Qed.
Print Assumptions C35_no_bursts_in_ranks.
Example C35_no_bursts_in_ranks_case : exists d0 d d' st, dram_new (ex_dspec DDR4) = Value d0 /\ uses_run (ex_dspec DDR4) amble_day d0 = Returned d /\
  dram_window (ex_dspec DDR4) 100 d = Returned (d', st) /\ map cs_prepos (ss_rank st) = [mkPrepos 0 0 0 0 1 0].
Proof. exact amble_day_runs. Qed.

(* So two bursts far apart are charged no pre- and postamble at all, *)
Theorem C35_ambles_charged_refuted : exists p us t d0 d d' st e,
  is_std (dp_ie p) = DDR4 /\ views_agree p /\ am_rz2o (is_ambles (dp_ie p)) = 2 /\ ln_term (im_rdqs (is_imp (dp_ie p))) = true /\
  dram_new p = Value d0 /\ uses_run p us d0 = Returned d /\ dram_window p t d = Returned (d', st) /\
  rank_bursts (dp_if p) true true 0 (commands (iface_calls us)) = [(20, 4); (34, 4)] /\
  ambleEnergy (dp_ie p) st = Exactly e /\ Qeq (ie_total e) 0.
Proof. exact gap_charge. Qed.
Print Assumptions C35_ambles_charged_refuted.

(* and with one seamless burst the number of pre- and postambles is negative,
   which the unsigned subtraction turns into more than 10^18 rising edges. *)
Theorem C35_never_negative_refuted : exists p us t d0 d d' st e,
  is_std (dp_ie p) = DDR4 /\ views_agree p /\ length us = 3%nat /\
  dram_new p = Value d0 /\ uses_run p us d0 = Returned d /\ dram_window p t d = Returned (d', st) /\ calc_interface_stats p st = Exactly e /\
  Qle (1000000000000000000 * ln_E (im_rdqs (is_imp (dp_ie p)))) (ie_ddyn e).
Proof. exact seamless_charge. Qed.
Print Assumptions C35_never_negative_refuted.
