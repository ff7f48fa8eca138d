(* Concrete memories used by the examples beside the energy theorems. *)
From Coq Require Import QArith NArith List Bool Arith Lqa.
From Verif Require Import Base Command CoreModel Bits StatsModel StatsSpec EnergyModel EnergySpec EnergyProofs EnergyMore.
Import ListNotations.
Local Open Scope Q_scope.

(* A DDR4 memory: 2 ranks of 2 devices with 4 banks (values of the order of a data sheet). *)
Definition ex_vdd : power := mkPower (12#10) (56#1000) (33#1000) (44#1000) (25#1000) (32#1000) (140#1000) (130#1000) (250#1000) 0 (30#1000) 0 (56#1000).
Definition ex_vpp : power := mkPower (25#10) (4#1000) (2#1000) (3#1000) (2#1000) (2#1000) (3#1000) (3#1000) (28#1000) 0 (2#1000) 0 (4#1000).
Definition ex_ddr4 : espec := mkEspec DDR4 2 2 4 2 8 2 (833#1000) 0 39 17 420 0 0 (3#4) false [ex_vdd; ex_vpp].
(* A DDR5 memory with 4 banks in 2 groups. *)
Definition ex_vdd5 : power := mkPower (11#10) (56#1000) (33#1000) (44#1000) (25#1000) (32#1000) (140#1000) (130#1000) (250#1000) (110#1000) (30#1000) 0 (50#1000).
Definition ex_ddr5 : espec := mkEspec DDR5 1 2 4 2 16 2 (1#2) 0 52 22 300 200 0 (1#2) false [ex_vdd5].
(* An LPDDR5 memory with bank groups. *)
Definition ex_vdd2h : power := mkPower (105#100) (60#1000) (25#1000) (30#1000) (2#1000) (3#1000) (300#1000) (280#1000) (200#1000) (45#1000) (1#1000) (1#2000) (60#1000).
Definition ex_lpddr5 : espec := mkEspec LPDDR5 1 1 16 4 16 2 (125#100) (3125#10000) 34 15 168 112 3120 (3#10) true [ex_vdd2h].

Definition ex_bank (a : N) : cycle_stats := mkCS (mkCstats a (a + 1) (2 * a) 3 4 0 0 0 0 1 2) (mkCycles (100 * a) 50 0 0 0 0) pp_zero.
Definition ex_stats (s : N) : sim_stats :=
  mkSim stats0 stats0 stats0 stats0 stats0 stats0 stats0 stats0 stats0 stats0 stats0
    (map (fun i => ex_bank (s + N.of_nat i)) (seq 0 8)) (map (fun i => mkCS cs_zero (mkCycles (s + 500) (10 * s) 7 8 9 0) pp_zero) (seq 0 2)).

Ltac decide_q := first [exact Logic.I | vm_compute; let H := fresh in intro H; discriminate H].
Lemma ex_ddr4_wf : well_formed ex_ddr4.
Proof. constructor; decide_q. Qed.
Lemma ex_ddr5_wf : well_formed ex_ddr5.
Proof. constructor; decide_q. Qed.
Lemma ex_lpddr5_wf : well_formed ex_lpddr5.
Proof. constructor; try decide_q. cbn [es_std ex_lpddr5]. split; decide_q. Qed.
Lemma ex_covers s : covers ex_ddr4 (ex_stats s).
Proof. split; cbn; apply Nat.le_refl. Qed.

Lemma ex_sane : sane ex_ddr4.
Proof.
  constructor; [decide_q|decide_q|split; decide_q|].
  intros w [<-|[<-|[]]]; (eexists; split; [apply bg_exists, ex_ddr4_wf|]);
    (constructor; [decide_q|decide_q|decide_q|decide_q|split; decide_q|split; [|split; [|split]]; decide_q|split; decide_q|decide_q|exact Logic.I]).
Qed.
Lemma ex_sane5 : sane ex_lpddr5.
Proof.
  constructor; [decide_q|decide_q|split; decide_q|].
  intros w [<-|[]]; (eexists; split; [apply bg_exists, ex_lpddr5_wf|]);
    (constructor; [decide_q|decide_q|decide_q|decide_q|split; decide_q|split; [|split; [|split]]; decide_q|split; decide_q|decide_q|decide_q]).
Qed.
Ltac each_place :=
  let b := fresh in let f := fresh in let i := fresh in let q := fresh in
  intros [b f|i q|i q];
  [destruct b, f; vm_compute; first [reflexivity|discriminate]
  |do 8 (destruct i as [|i]; [destruct q as [[]|[]|[]]; vm_compute; first [reflexivity|discriminate]|]); destruct i; vm_compute; first [reflexivity|discriminate]
  |do 2 (destruct i as [|i]; [destruct q as [[]|[]|[]]; vm_compute; first [reflexivity|discriminate]|]); destruct i; vm_compute; first [reflexivity|discriminate]].
Lemma ex_no_wrap : no_wrap (ex_stats 1) (ex_stats 2).
Proof. each_place. Qed.
Lemma ex_counts_le : counts_le (ex_stats 1) (ex_stats 2).
Proof. each_place. Qed.
(* DDR4 with bursts of five beats. *)
Definition ex_odd : espec := mkEspec DDR4 1 1 1 1 5 2 1 0 39 17 420 0 0 1 false [ex_vdd].
Lemma write_loop_refuted : exists p m n e,
  well_formed p /\ es_std p = DDR4 /\ qn n * es_tCK p == qnat (banks_in_burst p) * qn m * burst_time p /\
  calc_energy p (loop_stats p (banks_in_burst p) (only (mkCstats 0 0 0 m 0 0 0 0 0 0 0) (mkCycles n 0 0 0 0 0)) (only cs_zero (mkCycles n 0 0 0 0 0))) = Exactly e /\
  ~ en_total e == qnat (es_ranks p) * qnat (es_devices p) * qsum (fun w => pw_v w * pw_i4w w * (qn n * es_tCK p)) (es_domains p).
Proof.
  exists ex_odd, 2%N, 5%N. eexists.
  split; [constructor; decide_q|]. split; [reflexivity|]. split; [vm_compute; reflexivity|]. split; [vm_compute; reflexivity|]. decide_q.
Qed.
