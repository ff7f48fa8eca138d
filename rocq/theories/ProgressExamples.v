(* Concrete traces for C34 and C50, and the witnesses of refutations. *)
From Coq Require Import NArith QArith List Bool Arith Lia.
From Verif Require Import Base Command CoreModel Bits HistorySpec DeviceSpec ExampleCores BusModel WaveSpec StatsModel PatternModel PatternTables InterfaceModel InterfaceSpec InterfaceExamples
  ToggleModel DramModel DramSpec DramExamples ProgressSpec.
Import ListNotations.
Local Open Scope N_scope.

(* Activate, read, ask, write with auto-precharge, refresh, power-down and back;
   self-refresh except for DDR5; the end.  On LPDDR5 also deep sleep, on LPDDR6 a
   dual-bank refresh. *)
Definition full_day (s : standard) : list use :=
  [Both (cmd_at 0 ACT 4 3 0 []); Both (cmd_at 20 RD 4 0 9 (burst_row s)); Ask 30; Both (cmd_at 60 WRA 4 0 9 (burst_row s)); Ask 130; Both (cmd_at 150 REFA 0 0 0 []);
   Both (cmd_at 300 ACT 8 7 0 []); Both (cmd_at 330 PDEA 0 0 0 []); Both (cmd_at 360 PDXA 0 0 0 []); Both (cmd_at 400 PREA 0 0 0 [])] ++
  match s with
  | DDR5 => [Both (cmd_at 420 NOP 0 0 0 []); Both (cmd_at 440 REFSB 4 0 0 [])]
  | LPDDR5 => [Both (cmd_at 420 SREFEN 0 0 0 []); Both (cmd_at 700 DSMEN 0 0 0 []); Both (cmd_at 750 DSMEX 0 0 0 []); Both (cmd_at 800 SREFEX 0 0 0 [])]
  | LPDDR6 => [Both (mkCommand 420 REFDB 4 0 0 0 0 12 [] 0); Both (cmd_at 500 SREFEN 0 0 0 []); Both (cmd_at 800 SREFEX 0 0 0 [])]
  | _ => [Both (cmd_at 420 SREFEN 0 0 0 []); Both (cmd_at 800 SREFEX 0 0 0 [])]
  end ++ [Both (cmd_at 900 END_OF_SIMULATION 0 0 0 []); Ask 1000].
Definition toggle_sim : option toggle_def := Some (mkToggle (1#2) (1#2) TogL (1#2) (1#2) TogH).
Definition with_sim (p : dspec) (sim : option toggle_def) : dspec := mkDspec (dp_core p) (dp_if p) sim (dp_ce p) (dp_ie p).
Definition five : list standard := [DDR4; DDR5; LPDDR4; LPDDR5; LPDDR6].
Definition day_commands (s : standard) : list Command := HistorySpec.commands (core_ops (full_day s)).

Ltac show_fits :=
  constructor; [repeat (apply Forall_cons; [constructor; [vm_compute; reflexivity| intros; vm_compute; reflexivity
      | let H := fresh in intros H; first [exfalso; apply H; reflexivity|constructor;
        [vm_compute; reflexivity|first [left; reflexivity|right; split; [vm_compute; discriminate|repeat constructor]]|intros; vm_compute; reflexivity
        |intros; vm_compute; repeat constructor|intros; first [discriminate|split; [left; vm_compute; reflexivity|right; left; reflexivity]]|vm_compute; reflexivity]]
      | split; vm_compute; reflexivity]|]); apply Forall_nil
    | vm_compute; repeat split; discriminate | vm_compute; repeat split; discriminate | vm_compute; repeat split; discriminate].
Lemma day_fits s : trace_fits (spec_of_std s) true (day_commands s).
Proof. destruct s; cbv [day_commands full_day app core_ops flat_map HistorySpec.commands]; show_fits. Qed.
Lemma day_legal s : well_formed (dp_core (ex_dspec s)) /\ timely (dp_core (ex_dspec s)) (day_commands s) 1000 /\ legal_history (dp_core (ex_dspec s)) (day_commands s).
Proof. destruct s; (split; [split; [repeat constructor|first [discriminate|intros _; split; [repeat constructor|reflexivity]]]|]); (split; [show_timely|show_legal]). Qed.
Lemma day_uses s : Forall command_or_query (full_day s) /\ nondecreasing 0 (map op_time (core_ops (full_day s))) /\ final_time 0 (map op_time (core_ops (full_day s))) <= 1000.
Proof. destruct s; (split; [repeat constructor|]); (split; [vm_compute; repeat split; discriminate|vm_compute; discriminate]). Qed.

(* The same day with bursts of which only the length is known. *)
Definition without_data (c : Command) : Command := mkCommand (cmd_ts c) (cmd_type c) (cmd_bank c) (cmd_bankGroup c) (cmd_rank c) (cmd_row c) (cmd_column c) (cmd_dbank c) [] 0.
Definition blind_day (s : standard) : list use := map (fun u => match u with Both c => Both (without_data c) | _ => u end) (full_day s).
Definition blind_commands (s : standard) : list Command := HistorySpec.commands (core_ops (blind_day s)).
Lemma blind_fits s : trace_fits (spec_of_std s) false (blind_commands s).
Proof.
  assert (forall c, cmd_sz_bits c = 0 -> fi_std (spec_of_std s) = LPDDR6 -> burst_beats (spec_of_std s) false c = 24) as K.
  { intros c Z. unfold burst_beats, burst_bits. rewrite Z. destruct s; try discriminate. reflexivity. }
  destruct s; cbv [blind_commands blind_day full_day map app core_ops flat_map HistorySpec.commands].
  all: constructor; [repeat (apply Forall_cons; [constructor; [vm_compute; reflexivity| intros; vm_compute; reflexivity
      | let H := fresh in intros H; first [exfalso; apply H; reflexivity|constructor;
        [vm_compute; reflexivity|left; reflexivity|intros; vm_compute; reflexivity
        |intros; vm_compute; repeat constructor|intros; first [discriminate|split; [left; vm_compute; reflexivity|left; reflexivity]]|vm_compute; reflexivity]]
      | split; vm_compute; reflexivity]|]); apply Forall_nil
    | vm_compute; repeat split; discriminate | vm_compute; repeat split; discriminate | vm_compute; repeat split; discriminate].
Qed.
Lemma blind_legal s : timely (dp_core (ex_dspec s)) (blind_commands s) 1000 /\ legal_history (dp_core (ex_dspec s)) (blind_commands s).
Proof. destruct s; (split; [show_timely|show_legal]). Qed.
Lemma blind_uses s : Forall command_or_query (blind_day s) /\ nondecreasing 0 (map op_time (core_ops (blind_day s))) /\ final_time 0 (map op_time (core_ops (blind_day s))) <= 1000.
Proof. destruct s; (split; [repeat constructor|]); (split; [vm_compute; repeat split; discriminate|vm_compute; discriminate]). Qed.
Definition returns (p : dspec) (us : list use) : bool :=
  match dram_new p with Value d => match uses_run p us d with Returned _ => true | _ => false end | Fails _ => false end.

(* ---- stopping half way ---- *)

(* How a command ends that the core has taken and the interface has not: the
   failure, and the time of the last command before it and after it. *)
Definition half_way (p : dspec) (cs : list Command) (c : Command) : option (failure * N * N) :=
  match dram_new p with
  | Value d0 => match uses_run p (map Both cs) d0 with
                | Returned d => match do_dram_command p c d with
                                | InterfaceStops f s => Some (f, get_last_command_time (dr_core d), get_last_command_time s)
                                | _ => None
                                end
                | _ => None
                end
  | Fails _ => None
  end.
Lemma half_way_runs p cs c f t t' : half_way p cs c = Some (f, t, t') -> exists d0 d s, dram_new p = Value d0 /\ uses_run p (map Both cs) d0 = Returned d /\
  do_command (dp_core p) c (dr_core d) = Ok s /\ do_dram_command p c d = InterfaceStops f s /\ get_last_command_time (dr_core d) = t /\ get_last_command_time s = t'.
Proof.
  unfold half_way. destruct (dram_new p) as [d0|]; [|discriminate]. destruct (uses_run p (map Both cs) d0) as [d| |] eqn:R; try discriminate.
  destruct (do_dram_command p c d) as [| |g s] eqn:E; try discriminate. intros Q. injection Q as -> <- <-. exists d0, d, s. split; [reflexivity|]. split; [exact R|].
  assert (do_command (dp_core p) c (dr_core d) = Ok s) as K; [|auto].
  unfold do_dram_command, do_core_command, do_interface_command in E. destruct (do_command (dp_core p) c (dr_core d)) as [s1| | |]; try discriminate. cbn [dr_if dr_core] in E.
  destruct (if_command c (dr_if d)); [discriminate|]. injection E as _ <-. reflexivity.
Qed.
(* DDR5: self-refresh entry and exit. *)
Definition sleep5 : list Command := [cmd_at 10 SREFEN 0 0 0 []].
Definition wake5 : Command := cmd_at 500 SREFEX 0 0 0 [].
(* A read without data while the wires are watched. *)
Definition open_row : list Command := [cmd_at 0 ACT 0 3 0 []].
Definition bare_read : Command := cmd_at 20 RD 0 0 9 [].
(* LPDDR6: bank 1. *)
Definition bank_one : Command := cmd_at 5 ACT 1 3 0 [].
Lemma half_ways : half_way (ex_dspec DDR5) sleep5 wake5 = Some (Exception, 10, 500) /\
  Forall (fun s => half_way (ex_dspec s) open_row bare_read = Some (Assertion, 0, 20)) five /\
  half_way (ex_dspec LPDDR6) [] bank_one = Some (Assertion, 0, 5).
Proof. split; [vm_compute; reflexivity|]. split; [unfold five; repeat (apply Forall_cons; [vm_compute; reflexivity|]); apply Forall_nil|vm_compute; reflexivity]. Qed.
