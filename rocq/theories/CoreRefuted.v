(* Witnesses for the refuted forms of the core properties. *)
From Coq Require Import NArith List Bool.
From Verif Require Import Base Command CoreModel HistorySpec DeviceSpec ExampleCores.
Import ListNotations.
Local Open Scope N_scope.

Lemma last_command_time_query :
  exists p cs s t,
    nondecreasing 0 (map cmd_ts cs) /\ final_time 0 (map cmd_ts cs) <= t /\
    run_core p cs (core_new p) = Ok s /\
    get_last_command_time (fst (window_stats p t s)) <> get_last_command_time s.
Proof.
  exists ex_ddr4, [at_ 0 ACT 0 1; at_ 10 RDA 0 1].
  eexists. exists 100. vm_compute. repeat split; discriminate.
Qed.

Lemma counts_can_decrease :
  exists p cs t s c c',
    nondecreasing 0 (map cmd_ts cs) /\ no_overflow p (map cmd_ts cs) /\
    final_time 0 (map cmd_ts cs) <= t /\
    run_core p cs (core_new p) = Ok s /\
    shown_rank (snd (window_stats p t s)) 0 = Some c /\
    shown_rank (snd (window_stats p (t + 1) s)) 0 = Some c' /\
    cy_pda c' < cy_pda c.
Proof.
  exists ex_lpddr4, [at_ 0 ACT 0 1; at_ 1 PDEA 0 0; at_ 5 REFB 0 2; at_ 6 PDEA 0 0], 64.
  do 3 eexists. split; [vm_compute; repeat split; discriminate|].
  split; [repeat constructor|]. split; [vm_compute; discriminate|].
  split; [vm_compute; reflexivity|]. split; [vm_compute; reflexivity|].
  split; [vm_compute; reflexivity|]. vm_compute. reflexivity.
Qed.

(* The row was last closed by RDA at 30 and never opened again. *)
Definition ex_reopen : list Command :=
  [at_ 0 ACT 0 0; at_ 0 ACT 0 1; at_ 30 RDA 0 1; at_ 31 PDEA 0 0; at_ 100 PDXA 0 0].
(* Refresh of bank 1 ends at 120, which is also when power-down begins. *)
Definition ex_reopen2 : list Command :=
  [at_ 0 ACT 0 1; at_ 40 PRE 0 1; at_ 50 ACT 0 0; at_ 60 REFB 0 1; at_ 100 PDEA 0 0; at_ 200 PDXA 0 0].
(* Precharge power-down asked for while an auto-precharge is still to come. *)
Definition ex_wrap : list Command := [at_ 0 ACT 0 1; at_ 30 RDA 0 1; at_ 31 PDEP 0 0].

Lemma pre_wraps : forall p, In p [ex_ddr5; ex_lpddr4; ex_lpddr5; ex_lpddr6] ->
  timely p ex_wrap 200 /\
  exists c, bank_view p ex_wrap 200 0 1 = Some c /\ 200 < cy_pre c /\
    cy_act c + cy_pda c + cy_pdp c + cy_sref c + cy_dsm c > 200.
Proof.
  intros p H. repeat (destruct H as [<-|H]; [split; [show_timely|eexists; split; [vm_compute; reflexivity|]; split; vm_compute; reflexivity]|]). destruct H.
Qed.

Lemma closed_bank_resumes : forall p, In p [ex_ddr5; ex_lpddr4; ex_lpddr5; ex_lpddr6] ->
  timely p ex_reopen 200 /\
  exists c c', bank_view p ex_reopen 200 0 1 = Some c /\ bank_view p ex_reopen 300 0 1 = Some c' /\
    cy_act c' = cy_act c + 100.
Proof.
  intros p H. repeat (destruct H as [<-|H]; [split; [show_timely|do 2 eexists; split; [vm_compute; reflexivity|]; split; [vm_compute; reflexivity|]; vm_compute; reflexivity]|]). destruct H.
Qed.

Lemma refreshed_bank_resumes : forall p, In p [ex_lpddr4; ex_lpddr5] ->
  timely p ex_reopen2 300 /\
  exists c c', bank_view p ex_reopen2 300 0 1 = Some c /\ bank_view p ex_reopen2 400 0 1 = Some c' /\
    cy_act c' = cy_act c + 100.
Proof.
  intros p H. repeat (destruct H as [<-|H]; [split; [show_timely|do 2 eexists; split; [vm_compute; reflexivity|]; split; [vm_compute; reflexivity|]; vm_compute; reflexivity]|]). destruct H.
Qed.

(* Bank 0 is activated at 0 and tRAS is 20, so a read at 101 should be followed
   by the precharge at 101 + 8; the library waits until 120. *)
Definition ex_late : list Command := [at_ 0 ACT 0 0; at_ 30 PDEA 0 0; at_ 100 PDXA 0 0; at_ 101 RDA 0 0].
Definition ex_late' : list Command := [at_ 0 ACT 0 0; at_ 30 PDEA 0 0; at_ 100 PDXA 0 0; at_ 101 RD 0 0; at_ 109 PRE 0 0].

Lemma late_precharge : forall p, In p [ex_ddr4; ex_ddr5; ex_lpddr4; ex_lpddr5; ex_lpddr6] ->
  109 = N.max (0 + ms_tRAS p) (101 + ms_offRD p) /\
  timely p ex_late 200 /\ timely p ex_late' 200 /\ legal_history p ex_late /\ legal_history p ex_late' /\
  exists c c', bank_view p ex_late 200 0 0 = Some c /\ bank_view p ex_late' 200 0 0 = Some c' /\
    cy_act c <> cy_act c'.
Proof.
  intros p H. repeat (destruct H as [<-|H]; [split; [reflexivity|]; split; [show_timely|]; split; [show_timely|];
    split; [show_legal|]; split; [show_legal|]; do 2 eexists; split; [vm_compute; reflexivity|]; split; [vm_compute; reflexivity|]; vm_compute; discriminate|]). destruct H.
Qed.
