(* What becomes of the pre- and postambles in the energy of a DDR4. *)
From Coq Require Import NArith QArith List Bool Lia.
From Verif Require Import Base Command CoreModel Bits HistorySpec StatsModel StatsSpec EnergyModel IfEnergyModel IfEnergySpec InterfaceModel InterfaceSpec AmbleSpec DramModel DramSpec DramProofs.
Import ListNotations.
Local Open Scope N_scope.

Lemma no_bursts_in_ranks p t d d' st s : dram_window p t d = Returned (d', st) -> total_over_ranks (bursts s) st = 0.
Proof.
  intros W. apply rank_counters_empty in W. unfold total_over_ranks. induction W as [|r l H _ IH]; [reflexivity|]. cbn [map fold_right]. rewrite IH.
  destruct s; unfold bursts, part_at, cs_get; rewrite H; reflexivity.
Qed.
