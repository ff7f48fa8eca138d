(* C64: a parameter of the memory matters only for the commands that use it, and
   the cores of the five standards agree on the commands they share. *)
From Coq Require Import NArith QArith List Bool.
From Verif Require Import Base Command CoreModel HistorySpec DeviceSpec ExampleCores Bits StatsModel EnergyModel EnergySpec DramModel InterfaceExamples DramExamples ProgressExamples ProgressTop ChargeSpec ChargeTop
  ComposeExamples ParamSpec ParamProofs.
Import ListNotations.
Local Open Scope N_scope.

(* Two memories that agree on what the commands of a trace depend on accept it
   alike ... *)
Theorem C64_accepted : forall p q cs, agree_on p q cs -> legal_history p cs -> legal_history q cs.
Proof. exact agree_legal. Qed.
Print Assumptions C64_accepted.
(* ... and show the same times and counters. *)
Theorem C64_statistics : forall p q cs t, agree_on p q cs -> DeviceSpec.well_formed p -> DeviceSpec.well_formed q -> timely p cs t -> timely q cs t -> legal_history p cs ->
  forall r, (r < ms_ranks p)%nat -> (exists v, rank_view p cs t r = Some v /\ rank_view q cs t r = Some v) /\
  forall b, (b < ms_banks p)%nat -> (exists v, bank_view p cs t r b = Some v /\ bank_view q cs t r b = Some v) /\
    forall k, exists n, bank_counter p cs t r b k = Some n /\ bank_counter q cs t r b k = Some n.
Proof. exact agree_views. Qed.
Print Assumptions C64_statistics.
(* With the same currents, the same energy. *)
Theorem C64_energy : forall p q cs t, agree_on p q cs -> DeviceSpec.well_formed p -> DeviceSpec.well_formed q -> timely p cs t -> timely q cs t -> legal_history p cs ->
  forall e, EnergySpec.well_formed e -> same_memory p e -> same_memory q e ->
  exists s s' en en', run_core p cs (core_new p) = Ok s /\ run_core q cs (core_new q) = Ok s' /\
    calc_energy e (fill_core (snd (window_stats p t s))) = Exactly en /\ calc_energy e (fill_core (snd (window_stats q t s'))) = Exactly en' /\ (en_total en == en_total en')%Q.
Proof. exact agree_energy. Qed.
Print Assumptions C64_energy.
(* Another tRAS, tRFC and tRFCPB, for a trace with power-down but without
   auto-precharge and refresh. *)
Example C64_case : Forall (fun s => let p := memory s in
  let q := mkMemspec s 1 16 4 4 33 10 8 8 250 60 70 60 9 13 8 false in
  let cs := [cmd_at 0 ACT 0 3 0 []; cmd_at 20 RD 0 3 0 []; cmd_at 40 PDEA 0 0 0 []; cmd_at 80 PDXA 0 0 0 []; cmd_at 120 PRE 0 0 0 []] in
  p <> q /\ agree_on p q cs /\ DeviceSpec.well_formed p /\ DeviceSpec.well_formed q /\ timely p cs 500 /\ timely q cs 500 /\ legal_history p cs /\
  EnergySpec.well_formed (dp_ce (ex_dspec s)) /\ same_memory p (dp_ce (ex_dspec s)) /\ same_memory q (dp_ce (ex_dspec s))) five.
Proof.
  apply in_five. intros s. split; [destruct s; vm_compute; discriminate|]. split; [destruct s; (split; [reflexivity|split; [reflexivity|]]; repeat (apply Forall_cons; [repeat split|]); apply Forall_nil)|].
  split; [apply day_legal|]. split; [split; [repeat constructor|intros _; split; [repeat constructor|reflexivity]]|].
  split; [apply timely_by; destruct s; vm_compute; reflexivity|]. split; [apply timely_by; destruct s; vm_compute; reflexivity|].
  split; [destruct s; show_legal|]. split; [apply ex_energy_formed|]. split; [apply ex_same|]. destruct s; (split; [reflexivity|reflexivity|reflexivity|intros H; try discriminate H; reflexivity]).
Qed.

(* The same memory under two standards, where the second activate-to-access delay of
   LPDDR6 is not the longer one. *)
Theorem C64_standards : forall s s' p cs, ms_tRCDW p <= ms_tRCD p -> Forall (fun c => universal (cmd_type c) = true) cs -> agree_on (under s p) (under s' p) cs.
Proof. exact universal_agree. Qed.
Print Assumptions C64_standards.
Example C64_standards_case : Forall (fun s =>
  let cs := [cmd_at 0 ACT 0 3 0 []; cmd_at 20 WRA 0 3 0 []; cmd_at 90 PDEP 0 0 0 []; cmd_at 180 PDXP 0 0 0 []; cmd_at 220 REFA 0 0 0 []; cmd_at 400 SREFEN 0 0 0 []; cmd_at 900 SREFEX 0 0 0 []] in
  memory s = under s (memory DDR4) /\ ms_tRCDW (memory DDR4) <= ms_tRCD (memory DDR4) /\ Forall (fun c => universal (cmd_type c) = true) cs /\ DeviceSpec.well_formed (memory s) /\ timely (memory s) cs 1000 /\ legal_history (memory s) cs) five.
Proof.
  apply in_five. intros s. split; [destruct s; reflexivity|]. split; [vm_compute; discriminate|]. split; [repeat constructor|]. split; [apply day_legal|].
  split; [apply timely_by; destruct s; vm_compute; reflexivity|destruct s; show_legal].
Qed.
