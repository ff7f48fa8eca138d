(* Counts of any history between implicit commands: C10. *)
From Coq Require Import NArith List Bool Lia.
From Verif Require Import Base Command CoreModel HistorySpec ExampleCores CoreBounds GrowProofs.
Import ListNotations.
Local Open Scope N_scope.

(* Every history, legal or not: from t to t', with no implicit command falling
   due in between, each count either stands still or grows by the time that has
   passed. *)
Theorem C10_rank_counts_stand_or_run :
  forall p cs t t' s,
    nondecreasing 0 (map cmd_ts cs) -> no_overflow p (map cmd_ts cs) ->
    final_time 0 (map cmd_ts cs) <= t -> t <= t' -> t' < two64 ->
    run_core p cs (core_new p) = Ok s ->
    (forall e, In e (co_queue s) -> ~ (t < fst e <= t')) ->
    forall r c c',
      shown_rank (snd (window_stats p t s)) r = Some c ->
      shown_rank (snd (window_stats p t' s)) r = Some c' ->
      Forall2 (fun x y => y = x \/ y = x + (t' - t)) (shown_counts c) (shown_counts c').
Proof. exact rank_counts_grow. Qed.
Print Assumptions C10_rank_counts_stand_or_run.

(* The history of C10_monotone_refuted, with a second power-down entry, between
   its implicit commands at 8 and 65. *)
Definition broken : list Command := [at_ 0 ACT 0 1; at_ 1 PDEA 0 0; at_ 5 REFB 0 2; at_ 6 PDEA 0 0].
Example C10_rank_counts_stand_or_run_case :
  nondecreasing 0 (map cmd_ts broken) /\ no_overflow ex_lpddr4 (map cmd_ts broken) /\
  exists s c c', run_core ex_lpddr4 broken (core_new ex_lpddr4) = Ok s /\
    (forall e, In e (co_queue s) -> ~ (40 < fst e <= 60)) /\
    shown_rank (snd (window_stats ex_lpddr4 40 s)) 0 = Some c /\ shown_rank (snd (window_stats ex_lpddr4 60 s)) 0 = Some c' /\
    cy_act c = 8 /\ cy_act c' = 8 /\ cy_pda c = 32 /\ cy_pda c' = 52.
Proof.
  split; [vm_compute; repeat split; discriminate|]. split; [repeat constructor|].
  do 3 eexists. split; [vm_compute; reflexivity|].
  split; [intros e [<-|[<-|[<-|[]]]] [H1 H2]; cbn [fst] in *; lia|].
  split; [vm_compute; reflexivity|]. split; [vm_compute; reflexivity|]. repeat split.
Qed.

Theorem C10_bank_counts_stand_or_run :
  forall p cs t t' s,
    nondecreasing 0 (map cmd_ts cs) -> no_overflow p (map cmd_ts cs) ->
    final_time 0 (map cmd_ts cs) <= t -> t <= t' -> t' < two64 ->
    run_core p cs (core_new p) = Ok s ->
    (forall e, In e (co_queue s) -> ~ (t < fst e <= t')) ->
    forall r b c c', (b < ms_banks p)%nat ->
      shown_bank p (snd (window_stats p t s)) r b = Some c ->
      shown_bank p (snd (window_stats p t' s)) r b = Some c' ->
      Forall2 (fun x y => y = x \/ y = x + (t' - t)) (shown_counts (bs_cycles c)) (shown_counts (bs_cycles c')).
Proof. exact bank_counts_grow. Qed.
Print Assumptions C10_bank_counts_stand_or_run.

Example C10_bank_counts_stand_or_run_case :
  exists s c c', run_core ex_lpddr4 broken (core_new ex_lpddr4) = Ok s /\
    (forall e, In e (co_queue s) -> ~ (2 < fst e <= 7)) /\ (1 < ms_banks ex_lpddr4)%nat /\
    shown_bank ex_lpddr4 (snd (window_stats ex_lpddr4 6 s)) 0 1 = Some c /\ shown_bank ex_lpddr4 (snd (window_stats ex_lpddr4 7 s)) 0 1 = Some c' /\
    cy_act (bs_cycles c) = 6 /\ cy_act (bs_cycles c') = 7.
Proof.
  do 3 eexists. split; [vm_compute; reflexivity|].
  split; [intros e [<-|[<-|[<-|[]]]] [H1 H2]; cbn [fst] in *; lia|]. split; [vm_compute; repeat constructor|].
  split; [vm_compute; reflexivity|]. split; [vm_compute; reflexivity|]. split; vm_compute; reflexivity.
Qed.
