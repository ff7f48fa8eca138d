(* A trace of each standard that is left alone for another 600 cycles. *)
From Coq Require Import NArith QArith String List Bool Ascii Arith Lia.
From Verif Require FormatProofs.
From Verif Require Import Base Command CoreModel Bits WaveSpec ToggleModel StatsModel EnergyModel IfEnergyModel IfEnergySpec InterfaceModel InterfaceSpec HistorySpec DeviceSpec ExampleCores
  InterfaceExamples DramModel DramSpec ProgressSpec ChargeSpec ComposeExamples CsvModel CliModel CliSpec CsvProofs CliProofs CliTop CliExamples
  MemSpecModel MemSpecSpec MemSpecProofs PropMemSpec WholeSpec WholeWires WholeProofs WholeExamples JoinSpec JoinProofs JoinTop JoinExamples IdleSpec IdleProofs IdleEnd.
Import ListNotations.
Local Open Scope N_scope.

Definition work : list Command := firstn 5 run_commands.
Definition stop (t : N) : Command := mkCommand t END_OF_SIMULATION 0 0 0 0 0 8 [] 0.
Lemma stops : work ++ [stop 400] = run_commands. Proof. reflexivity. Qed.
Lemma long_wait s : exists m, mem_new (ex_whole s) = Value m /\ let p := views m None ex_grow None in
  capable p /\ end_at (stop 400) 400 /\ end_at (stop 1000) 1000 /\ ends work + tmax (dp_core p) <= 400 /\ quiet (dp_if p) true work 400 /\
  soundly p (work ++ [stop 400]) /\ 1000 + tmax (dp_core p) < two64 /\ countable (dp_if p) 1000 /\ command_ok (dp_if p) true (stop 1000).
Proof.
  destruct (run_capable s) as (m & M & Cp & So & _). exists m. split; [exact M|]. cbv zeta. rewrite stops.
  split; [exact Cp|]. split; [split; reflexivity|]. split; [split; reflexivity|].
  assert (Value m = Value m) as E by reflexivity. rewrite <- M in E at 1. clear -E So.
  assert (forall x, soundly (views x None ex_grow None) run_commands -> soundly (views x None ex_grow None) run_commands) as K by auto. specialize (K m So). clear So. revert K.
  destruct s; vm_compute in E; apply FormatProofs.value_inj in E; subst m; intros K;
    (split; [vm_compute; discriminate|]); (split; [apply quiet_by; vm_compute; reflexivity|]); (split; [exact K|]); (split; [vm_compute; reflexivity|]); (split; [vm_compute; reflexivity|]); split; vm_compute; reflexivity.
Qed.
Definition long_lines : list line := firstn 5 run_lines ++ [mkLine (map bare ["1000"; "END"; "0"; "0"; "0"; "0"; "0"]%string) [lf]].
Lemma long_read : parse_command_list (lines_text run_lines) = Value (Some (work ++ [stop 400])) /\
  parse_command_list (lines_text long_lines) = Value (Some (work ++ [stop 1000])).
Proof. split; vm_compute; reflexivity. Qed.
