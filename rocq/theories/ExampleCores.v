(* Concrete configurations and histories used by the non-vacuity examples and
   as witnesses of refutations.  Not a model of any code. *)
From Coq Require Import NArith List Bool.
From Verif Require Import Base Command CoreModel HistorySpec DeviceSpec.
Import ListNotations.
Local Open Scope N_scope.

Definition at_ (t : N) (k : CmdType) (r b : N) : Command :=
  mkCommand t k b 0 r 0 0 0 [] 0.

Definition ex_ddr4 : memspec := mkMemspec DDR4 2 4 2 2 20 10 8 8 100 60 60 60 8 12 8 false.
Definition ex_ddr5 : memspec := mkMemspec DDR5 1 4 2 2 20 10 8 8 100 60 60 60 8 12 8 false.
Definition ex_lpddr4 : memspec := mkMemspec LPDDR4 1 4 2 2 20 10 8 8 100 60 60 60 8 12 8 false.
Definition ex_lpddr5 : memspec := mkMemspec LPDDR5 1 16 4 4 20 10 8 8 100 60 60 60 8 12 8 false.
Definition ex_lpddr6 : memspec := mkMemspec LPDDR6 1 16 4 4 20 10 8 10 100 60 60 60 8 12 8 false.

Definition ex_hist5 : list Command :=
  [at_ 0 ACT 0 1; at_ 10 RD 0 1; at_ 15 WRA 0 1; at_ 200 REFSB 0 0; at_ 500 REFA 0 0; at_ 800 ACT 0 3].

Definition ex_ops : list op :=
  [Cmd (at_ 0 ACT 0 1); Query 5; Cmd (at_ 10 RDA 0 1); Query 60; Cmd (at_ 100 ACT 1 0)].

Definition ex_two_ranks : list Command :=
  [at_ 0 ACT 0 1; at_ 5 ACT 1 2; at_ 15 RDA 0 1; at_ 20 WRA 1 2; at_ 200 REFA 0 0].

Definition ex_sched : list (sched_op nat) :=
  [Schedule 5 1%nat; Schedule 4 2%nat; Schedule 9 3%nat; RunDue 4; Schedule 5 4%nat; RunDue 6].

(* A legal LPDDR5 life: two banks opened, active power-down, auto-precharge,
   two-bank refresh, precharge power-down, self-refresh with deep sleep. *)
Definition ex_pd : list Command := [at_ 0 ACT 0 1; at_ 5 ACT 0 9; at_ 20 RD 0 1; at_ 40 PRE 0 9].
Definition ex_pd_mid : list Command := [at_ 80 END_OF_SIMULATION 0 0].
Definition ex_pd_all : list Command := ex_pd ++ at_ 60 PDEA 0 0 :: ex_pd_mid ++ [at_ 100 PDXA 0 0].
Definition ex_sref : list Command :=
  ex_pd_all ++ [at_ 110 RDA 0 1; at_ 200 REFP2B 0 2; at_ 300 PDEP 0 0; at_ 350 PDXP 0 0].
Definition ex_sref_mid : list Command := [at_ 600 DSMEN 0 0; at_ 700 DSMEX 0 0].
Definition ex_sref_all : list Command := ex_sref ++ at_ 400 SREFEN 0 0 :: ex_sref_mid ++ [at_ 900 SREFEX 0 0].

(* Two ranks of DDR4: an auto-precharge on rank 0 with other banks and the
   other rank busy in between. *)
Definition ex_auto_a2 : list Command := [at_ 2 ACT 1 1; at_ 12 WR 0 2].
Definition ex_auto_mid : list Command := [at_ 31 ACT 0 3; at_ 32 PDEA 1 0].
Definition ex_auto_post : list Command := [at_ 60 PREA 0 0; at_ 80 REFA 0 0].

Ltac show_timely :=
  split; [vm_compute; repeat split; discriminate|];
  split; [repeat constructor|];
  split; [vm_compute; discriminate|];
  split; vm_compute; reflexivity.
(* At most two ranks are used. *)
Ltac show_legal :=
  let r := fresh "r" in let H := fresh "H" in
  split; [repeat constructor|];
  intros r H; unfold legal; vm_compute in H;
  destruct r as [|[|r]];
  [vm_compute; discriminate
  |first [exfalso; repeat apply le_S_n in H; solve [inversion H] | vm_compute; discriminate]
  |exfalso; repeat apply le_S_n in H; inversion H].
