(* C58: ranks and banks are interchangeable.  Giving them other numbers changes
   which rank and bank the numbers are shown for, and nothing else. *)
From Coq Require Import NArith QArith List Bool.
From Verif Require Import Base Command CoreModel HistorySpec DeviceSpec ExampleCores StatsModel EnergyModel EnergySpec EnergyExamples IfEnergyModel Bits InterfaceModel InterfaceSpec InterfaceExamples
  DramModel DramSpec DramExamples ProgressSpec ProgressProofs ProgressQuery ProgressExamples ProgressTop ChargeSpec ChargeProofs ChargeTop
  ComposeExamples RenameSpec RenameProofs RenameTop RenameExamples.
Import ListNotations.
Local Open Scope N_scope.

Theorem C58_accepted : forall p sg pi cs, renumbers (ms_ranks p) sg -> renumbers (ms_banks p) pi -> Forall (compatible p sg pi) cs -> legal_history p cs ->
  legal_history p (map (rename sg pi) cs).
Proof. exact renamed_legal. Qed.
Print Assumptions C58_accepted.
Theorem C58_rank_times : forall p sg pi cs t, renumbers (ms_ranks p) sg -> renumbers (ms_banks p) pi -> Forall (compatible p sg pi) cs ->
  DeviceSpec.well_formed p -> timely p cs t -> legal_history p cs ->
  forall r, (r < ms_ranks p)%nat -> exists v, rank_view p cs t r = Some v /\ rank_view p (map (rename sg pi) cs) t (sg r) = Some v.
Proof. exact renamed_rank. Qed.
Print Assumptions C58_rank_times.
Theorem C58_bank_times : forall p sg pi cs t, renumbers (ms_ranks p) sg -> renumbers (ms_banks p) pi -> Forall (compatible p sg pi) cs ->
  DeviceSpec.well_formed p -> timely p cs t -> legal_history p cs ->
  forall r b, (r < ms_ranks p)%nat -> (b < ms_banks p)%nat -> exists v, bank_view p cs t r b = Some v /\ bank_view p (map (rename sg pi) cs) t (sg r) (pi b) = Some v.
Proof. exact renamed_bank. Qed.
Print Assumptions C58_bank_times.
Theorem C58_counters : forall p sg pi cs t, renumbers (ms_ranks p) sg -> renumbers (ms_banks p) pi -> Forall (compatible p sg pi) cs ->
  DeviceSpec.well_formed p -> timely p cs t -> legal_history p cs ->
  forall r b k, (r < ms_ranks p)%nat -> (b < ms_banks p)%nat -> exists n, bank_counter p cs t r b k = Some n /\ bank_counter p (map (rename sg pi) cs) t (sg r) (pi b) k = Some n.
Proof. exact renamed_counter. Qed.
Print Assumptions C58_counters.
Theorem C58_energy : forall p sg pi cs t, renumbers (ms_ranks p) sg -> renumbers (ms_banks p) pi -> Forall (compatible p sg pi) cs ->
  DeviceSpec.well_formed p -> timely p cs t -> legal_history p cs -> forall e, EnergySpec.well_formed e -> same_memory p e ->
  exists s s' en en', run_core p cs (core_new p) = Ok s /\ run_core p (map (rename sg pi) cs) (core_new p) = Ok s' /\
    calc_energy e (fill_core (snd (window_stats p t s))) = Exactly en /\ calc_energy e (fill_core (snd (window_stats p t s'))) = Exactly en' /\ (en_total en == en_total en')%Q.
Proof. exact renamed_energy. Qed.
Print Assumptions C58_energy.
(* All five standards, every bank five further on; in DDR5 with a refresh of the
   same bank in all groups. *)
Example C58_banks_case : Forall (fun s => let p := dp_core (ex_dspec s) in
  (renumbers (ms_ranks p) itself /\ renumbers (ms_banks p) five_on /\ Forall (compatible p itself five_on) (day_commands s)) /\
  (DeviceSpec.well_formed p /\ timely p (day_commands s) 1000 /\ legal_history p (day_commands s)) /\
  EnergySpec.well_formed (dp_ce (ex_dspec s)) /\ same_memory p (dp_ce (ex_dspec s))) five.
Proof. apply in_five. intros s. split; [apply day_renumbers|]. split; [apply day_legal|]. split; [apply ex_energy_formed|apply ex_same]. Qed.
(* Two ranks exchanged. *)
Example C58_ranks_case : let p := ExampleCores.ex_ddr4 in let cs := [at_ 5 ACT 0 1; at_ 5 ACT 1 2; at_ 30 RDA 0 1; at_ 40 PDEA 1 0] in
  renumbers (ms_ranks p) other /\ renumbers (ms_banks p) itself /\ Forall (compatible p other itself) cs /\ DeviceSpec.well_formed p /\ timely p cs 100 /\ legal_history p cs /\
  map (rename other itself) cs = [at_ 5 ACT 1 1; at_ 5 ACT 0 2; at_ 30 RDA 1 1; at_ 40 PDEA 0 0].
Proof.
  split; [apply renumbers_by; vm_compute; reflexivity|]. split; [apply renumbers_by; vm_compute; reflexivity|]. split; [apply compatible_by; vm_compute; reflexivity|].
  split; [split; [repeat constructor|discriminate]|]. split; [apply timely_by; vm_compute; reflexivity|]. split; [show_legal|reflexivity].
Qed.

(* Which renumberings do: all, for commands that name the banks they address; and
   in DDR5 those that keep indices inside the groups. *)
Theorem C58_named_banks : forall p sg pi c, renumbers (ms_banks p) pi -> well_addressed p c = true -> names_banks (cmd_type c) = true -> compatible p sg pi c.
Proof. exact names_compatible. Qed.
Print Assumptions C58_named_banks.
Theorem C58_bank_groups : forall p sg pi c, DeviceSpec.well_formed p -> ms_std p = DDR5 -> renumbers (ms_banks p) pi -> keeps_indices p pi -> well_addressed p c = true ->
  cmd_type c <> REFP2B -> compatible p sg pi c.
Proof. exact index_compatible. Qed.
Print Assumptions C58_bank_groups.
Theorem C58_any_renumbering_refuted : exists p cs t r b k, DeviceSpec.well_formed p /\ renumbers (ms_banks p) swap /\ timely p cs t /\ legal_history p cs /\ (r < ms_ranks p)%nat /\ (b < ms_banks p)%nat /\
  exists n n', bank_counter p cs t r b k = Some n /\ bank_counter p (map (rename itself swap) cs) t r (swap b) k = Some n' /\ n <> n'.
Proof. exact swap_breaks. Qed.
Print Assumptions C58_any_renumbering_refuted.
Example C58_named_banks_case : renumbers (ms_banks (dp_core (ex_dspec LPDDR6))) swap /\ well_addressed (dp_core (ex_dspec LPDDR6)) (mkCommand 420 REFDB 4 0 0 0 0 12 [] 0) = true.
Proof. split; [apply renumbers_by|]; vm_compute; reflexivity. Qed.
Example C58_bank_groups_case : let p := dp_core (ex_dspec DDR5) in DeviceSpec.well_formed p /\ renumbers (ms_banks p) five_on /\ keeps_indices p five_on /\ well_addressed p (cmd_at 440 REFSB 4 0 0 []) = true.
Proof.
  split; [apply day_legal|]. split; [apply renumbers_by; vm_compute; reflexivity|]. split; [|vm_compute; reflexivity].
  intros i j Hi Hj. assert (forallb (fun i => forallb (fun j => Bool.eqb (Nat.eqb (Nat.modulo (five_on i) 4) (Nat.modulo (five_on j) 4)) (Nat.eqb (Nat.modulo i 4) (Nat.modulo j 4))) (seq 0 16)) (seq 0 16) = true) as H by (vm_compute; reflexivity).
  rewrite forallb_forall in H. specialize (H i (proj2 (in_seq _ _ _) (conj (Nat.le_0_l i) Hi))). rewrite forallb_forall in H. specialize (H j (proj2 (in_seq _ _ _) (conj (Nat.le_0_l j) Hj))).
  apply eqb_prop in H. change (ms_banksPerGroup (dp_core (ex_dspec DDR5))) with 4%nat. rewrite <- !Nat.eqb_eq, H. reflexivity.
Qed.
