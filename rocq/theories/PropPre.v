(* C85: the precharge counter of a bank, in any history the core accepts, whether it
   keeps to the rules of the device or not.  Which commands open a bank and which
   precharge it is said in PreSpec.v. *)
From Coq Require Import NArith List Bool.
From Verif Require Import Base Command CoreModel HistorySpec PreSpec PreProofs ExampleCores.
Import ListNotations.
Local Open Scope N_scope.

(* It never exceeds the number of times the bank was opened, by an activation or a
   refresh, nor the number of times a precharge was asked for. *)
Theorem C85_precharges : forall p cs s t r b, (r < ms_ranks p)%nat -> (b < ms_banks p)%nat -> run_core p cs (core_new p) = Ok s ->
  exists st, shown_bank p (snd (window_stats p t s)) r b = Some st /\
    cs_get K_pre (bs_counter st) <= amount (opens p b) r cs /\ cs_get K_pre (bs_counter st) <= amount (precharges p b) r cs.
Proof. exact precharges_bounded. Qed.
Print Assumptions C85_precharges.
(* A precharge of a closed bank, one during a refresh, one that closes a row, and an
   auto-precharge. *)
Example C85_precharges_case : (exists s, run_core ex_ddr4 refreshed_bank (core_new ex_ddr4) = Ok s) /\ pre_shown ex_ddr4 refreshed_bank 400 0 1 = Some (2, 1) /\
  amount (opens ex_ddr4 1) 0 refreshed_bank = 2 /\ amount (precharges ex_ddr4 1) 0 refreshed_bank = 3.
Proof. exact refreshed_case. Qed.

(* A bank that is never refreshed is charged no more precharges than activations. *)
Theorem C85_activations : forall p cs s t r b, (r < ms_ranks p)%nat -> (b < ms_banks p)%nat -> N.of_nat (length cs) < two64 ->
  (forall c, In c cs -> N.to_nat (cmd_rank c) = r -> opens p b c = true -> cmd_type c = ACT) -> run_core p cs (core_new p) = Ok s ->
  exists st, shown_bank p (snd (window_stats p t s)) r b = Some st /\ cs_get K_pre (bs_counter st) <= cs_get K_act (bs_counter st).
Proof. exact precharges_activations. Qed.
Print Assumptions C85_activations.
Example C85_activations_case : (exists s, run_core ex_ddr4 busy_bank (core_new ex_ddr4) = Ok s) /\ pre_shown ex_ddr4 busy_bank 400 0 1 = Some (2, 3) /\
  amount (opens ex_ddr4 1) 0 busy_bank = 3 /\ amount (precharges ex_ddr4 1) 0 busy_bank = 6 /\
  (forall c, In c busy_bank -> N.to_nat (cmd_rank c) = 0%nat -> opens ex_ddr4 1 c = true -> cmd_type c = ACT).
Proof. exact busy_case. Qed.

(* That every bank is: false, a refresh that is cut short by a precharge counts one
   that closes no row. *)
Theorem C85_every_bank_refuted : exists p cs s st, run_core p cs (core_new p) = Ok s /\ shown_bank p (snd (window_stats p 20 s)) 0 0 = Some st /\
  cs_get K_act (bs_counter st) < cs_get K_pre (bs_counter st).
Proof. exact never_activated. Qed.
Print Assumptions C85_every_bank_refuted.
