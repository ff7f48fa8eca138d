(* Concrete traces and how they end. *)
From Coq Require Import NArith QArith String List Bool Ascii Arith Lia.
From Verif Require Import Base Command CoreModel Bits HistorySpec DeviceSpec ExampleCores BusModel WaveSpec StatsModel PatternModel PatternTables InterfaceModel InterfaceSpec InterfaceExamples
  ToggleModel DramModel DramSpec DramExamples ProgressSpec ProgressExamples RejectSpec TakenSpec TakenProofs TakenExamples CsvModel CliModel CliSpec CliExamples EndSpec EndProofs EndTop.
Import ListNotations.
Local Open Scope N_scope.

(* Into self-refresh and out of it. *)
Definition sleeper : list Command := [mkCommand 0 SREFEN 0 0 0 0 0 8 [] 0].
Definition waker : Command := mkCommand 2000 SREFEX 0 0 0 0 0 8 [] 0.
Definition sleep_text : list ascii := ch "0,SREFEN,0,0,0,0,0" ++ [lf] ++ ch "2000,SREFEX,0,0,0,0,0" ++ [lf].
Lemma sleep_read : parse_command_list sleep_text = Value (Some (sleeper ++ [waker])).
Proof. vm_compute. reflexivity. Qed.
Lemma sleep_dressed : Forall (dressed (spec_of_std DDR5) true) (sleeper ++ [waker]).
Proof. cbv [sleeper waker app]. show_dressed. Qed.
Lemma sleep_legal : timely (dp_core (ex_dspec DDR5)) (sleeper ++ [waker]) 3000 /\ legal_history (dp_core (ex_dspec DDR5)) (sleeper ++ [waker]).
Proof. split; [show_timely|show_legal]. Qed.
Lemma sleep_predictable : predictable (dp_core (ex_dspec DDR5)) (sleeper ++ [waker]).
Proof. destruct sleep_legal as [T L]. exact (legal_predictable _ _ _ T L). Qed.
Ltac show_free := vm_compute; repeat split; discriminate.
Ltac show_allowed :=
  constructor; [repeat (apply Forall_cons; [constructor;
      [reflexivity
      |let H := fresh in intros H; first [discriminate H|intros _; vm_compute; reflexivity]
      |let H := fresh in intros H; first [exfalso; apply H; reflexivity|vm_compute; reflexivity]
      |let H := fresh in intros H; intros K; first [discriminate K|exfalso; apply H; reflexivity]
      |let H := fresh in intros H; intros K; first [discriminate K|exfalso; apply H; reflexivity|vm_compute; repeat constructor]]|]); apply Forall_nil
    |show_free|show_free|show_free].
Ltac show_taken := let a := fresh in let x := fresh in let b := fresh in let E := fresh in
  intros a x b E; repeat (destruct a as [|? a]; cbn [app] in E; [injection E as <- _; vm_compute; reflexivity|injection E as <- E]); destruct a; discriminate E.
Lemma sleeper_taken : all_taken (ex_dspec DDR5) true sleeper.
Proof. split; [unfold core_takes_all; cbv [sleeper]; show_taken|cbv [sleeper]; show_allowed]. Qed.
(* DDR5 has no word for the way out. *)
Lemma waker_refused : refused_first (ex_dspec DDR5) true sleeper waker (ByInterface Exception).
Proof.
  split; [exact sleeper_taken|]. assert (core_says (dp_core (ex_dspec DDR5)) sleeper waker = Taken) as -> by (vm_compute; reflexivity). split; [|reflexivity].
  intros [A _ _ _]. apply Forall_app in A as [_ A]. inversion A as [|? ? C _]; subst. pose proof (ca_type _ _ _ C) as T. discriminate T.
Qed.
(* Two reads in a row: the data bus stops the second. *)
Definition crowd_first (s : standard) : list Command := [cmd_at 0 ACT 4 3 0 []; cmd_at 20 RD 4 0 9 (burst_row s)].
Definition crowd_second (s : standard) : Command := cmd_at 21 RD 4 0 9 (burst_row s).
Lemma crowded_split s : crowded s = crowd_first s ++ [crowd_second s].
Proof. reflexivity. Qed.
Lemma crowd_taken s : all_taken (ex_dspec s) true (crowd_first s).
Proof. destruct s; (split; [unfold core_takes_all; cbv [crowd_first]; show_taken|cbv [crowd_first]; show_allowed]). Qed.
Lemma crowd_allowed s : trace_allowed (spec_of_std s) true (crowd_first s).
Proof. exact (proj2 (crowd_taken s)). Qed.
Lemma day_predictable s : predictable (dp_core (ex_dspec s)) (day_commands s).
Proof. destruct (day_legal s) as (_ & T & L). exact (legal_predictable _ _ _ T L). Qed.
Lemma crowd_refused s : refused_first (ex_dspec s) true (crowd_first s) (crowd_second s) (ByInterface Assertion).
Proof.
  split; [apply crowd_taken|]. assert (core_says (dp_core (ex_dspec s)) (crowd_first s) (crowd_second s) = Taken) as -> by (destruct s; vm_compute; reflexivity).
  split; [|destruct s; reflexivity]. intros [_ _ A _]. destruct s; vm_compute in A; destruct A as (_ & A & _); now apply A.
Qed.
Lemma crowd_predictable s : predictable (dp_core (ex_dspec s)) (crowded s).
Proof. apply free_predictable. repeat constructor. Qed.
(* A rank that does not exist: the core stops it. *)
Definition lost (s : standard) : Command := mkCommand 40 PRE 4 0 7 0 0 8 [] 0.
Lemma lost_refused s : refused_first (ex_dspec s) true (crowd_first s) (lost s) (ByCore Asserted).
Proof. split; [apply crowd_taken|]. assert (core_says (dp_core (ex_dspec s)) (crowd_first s) (lost s) = Asserted) as -> by (destruct s; vm_compute; reflexivity). reflexivity. Qed.
Lemma lost_dressed s : Forall (dressed (spec_of_std s) true) (crowd_first s ++ [lost s]).
Proof. destruct s; cbv [crowd_first lost app]; show_dressed. Qed.
(* The whole program. *)
Definition good_text : list ascii := lines_text ex_lines ++ cells_text ex_last.
Lemma good_read : parse_command_list good_text = Value (Some (ex_commands ++ [ex_end])).
Proof. vm_compute. reflexivity. Qed.
Lemma good_dressed : Forall (fun s => Forall (dressed (spec_of_std s) true) (ex_commands ++ [ex_end])) [DDR4; DDR5].
Proof. repeat (apply Forall_cons; [cbv [ex_commands ex_end app]; show_dressed|]). apply Forall_nil. Qed.
Lemma good_predictable s : predictable (dp_core (ex_dspec s)) (ex_commands ++ [ex_end]).
Proof. apply free_predictable. repeat constructor. Qed.
Lemma good_taken : Forall (fun s => all_taken (ex_dspec s) true (ex_commands ++ [ex_end])) [DDR4; DDR5].
Proof. repeat (apply Forall_cons; [split; [unfold core_takes_all; cbv [ex_commands ex_end app]; show_taken|cbv [ex_commands ex_end app]; show_allowed]|]). apply Forall_nil. Qed.
Definition new_ok (s : standard) : bool := match dram_new (ex_dspec s) with Value _ => true | Fails _ => false end.
Lemma new_there s : exists d0, dram_new (ex_dspec s) = Value d0.
Proof. assert (new_ok s = true) as E by (destruct s; vm_compute; reflexivity). unfold new_ok in E. destruct (dram_new (ex_dspec s)) as [d0|]; [now exists d0|discriminate]. Qed.
