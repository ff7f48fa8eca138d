(* C68: which commands a core takes, and which breaches of protocol it notices. *)
From Coq Require Import NArith List Bool.
From Verif Require Import Base Command CoreModel HistorySpec DeviceSpec ExampleCores RejectSpec RejectProofs.
Import ListNotations.
Local Open Scope N_scope.

(* After any history that was taken, legal or not and in any order of time, a command that
   wants no mode is taken, stops the program or is refused according to its type and
   address alone. *)
Theorem C68_any_history p cs s c : well_formed p -> run_core p cs (core_new p) = Ok s -> wants p (cmd_type c) = None ->
  reaction_of (do_command p c s) = on_address p c.
Proof. exact (free_reaction p cs s c). Qed.
Print Assumptions C68_any_history.
(* A bad type or address is never taken, whatever the state. *)
Theorem C68_bad_address p cs s c : well_formed p -> run_core p cs (core_new p) = Ok s -> on_address p c <> Taken ->
  reaction_of (do_command p c s) = on_address p c.
Proof. exact (bad_address p cs s c). Qed.
Print Assumptions C68_bad_address.
(* A history of such commands is taken exactly if each of them is well addressed. *)
Theorem C68_accepted p cs : well_formed p -> Forall (fun c => wants p (cmd_type c) = None) cs ->
  ((exists s, run_core p cs (core_new p) = Ok s) <-> Forall (fun c => on_address p c = Taken) cs).
Proof. exact (free_accepted p cs). Qed.
Print Assumptions C68_accepted.
Example C68_any_history_case : well_formed ex_ddr5 /\ Forall (fun c => wants ex_ddr5 (cmd_type c) = None) [at_ 9 ACT 0 1; at_ 3 ACT 0 1; at_ 7 PDXA 0 0; at_ 7 REFSB 0 3] /\
  Forall (fun c => on_address ex_ddr5 c = Taken) [at_ 9 ACT 0 1; at_ 3 ACT 0 1; at_ 7 PDXA 0 0; at_ 7 REFSB 0 3] /\
  on_address ex_ddr5 (at_ 9 ACT 0 4) = Asserted /\ on_address ex_ddr5 (at_ 9 ACT 1 0) = Asserted /\ on_address ex_ddr5 (at_ 9 REFB 0 0) = Asserted.
Proof. repeat constructor. Qed.

(* After a legal history the reaction to any command whatever is known: besides type and
   address only the mode of the rank counts, and only for the exits from self-refresh and
   deep sleep, the entry into deep sleep, and on DDR4 the exit from active power-down. *)
Theorem C68_after_legal p cs c s : well_formed p -> timely p cs (cmd_ts c) -> legal_history p cs -> run_core p cs (core_new p) = Ok s ->
  reaction_of (do_command p c s) = reaction_in p (mode_before p cs c) c.
Proof. exact (legal_reaction p cs c s). Qed.
Print Assumptions C68_after_legal.
(* So these are the breaches of protocol that are noticed, and all others are taken. *)
Theorem C68_noticed p cs c s : well_formed p -> timely p cs (cmd_ts c) -> legal_history p cs -> run_core p cs (core_new p) = Ok s -> on_address p c = Taken ->
  (reaction_of (do_command p c s) = Asserted <-> exists w, wants p (cmd_type c) = Some w /\ mode_before p cs c <> w) /\
  (reaction_of (do_command p c s) <> Asserted -> exists s', do_command p c s = Ok s').
Proof. exact (noticed p cs c s). Qed.
Print Assumptions C68_noticed.
Example C68_noticed_case : well_formed ex_lpddr5 /\ timely ex_lpddr5 ex_sref 380 /\ legal_history ex_lpddr5 ex_sref /\ (exists s, run_core ex_lpddr5 ex_sref (core_new ex_lpddr5) = Ok s) /\
  on_address ex_lpddr5 (at_ 380 SREFEX 0 0) = Taken /\ wants ex_lpddr5 SREFEX = Some SelfRef /\ mode_before ex_lpddr5 ex_sref (at_ 380 SREFEX 0 0) = Up.
Proof. split; [split; [vm_compute; repeat constructor|discriminate]|]. split; [show_timely|]. split; [show_legal|]. split; [vm_compute; eexists; reflexivity|]. repeat split. Qed.

(* That every breach is noticed is false on every standard: an open bank can be opened
   again. *)
Theorem C68_every_breach_refuted : forall std, exists p cs c s s', ms_std p = std /\ well_formed p /\ timely p cs (cmd_ts c) /\ legal_history p cs /\
  run_core p cs (core_new p) = Ok s /\ breach p cs c /\ do_command p c s = Ok s'.
Proof. exact breach_unnoticed. Qed.
Print Assumptions C68_every_breach_refuted.
