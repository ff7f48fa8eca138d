(* Concrete days with data inversion and metadata. *)
From Coq Require Import NArith QArith List Bool Lia.
From Verif Require Import Base Command CoreModel Bits BusModel WaveSpec BusProofs ToggleModel ToggleProofs StatsModel InterfaceModel InterfaceSpec WireSpec InterfaceExamples.
Import ListNotations.
Local Open Scope N_scope.

Definition noisy_day (s : standard) : list call := [SetDbi true; SetMeta 70000 9] ++ a_day s.
Definition half_rates : toggle_def := mkToggle (1 # 2) (1 # 2) TogH (1 # 4) (1 # 2) TogL.

Ltac split_cmds := repeat (apply Forall_cons; [|]); try apply Forall_nil.
Lemma noisy_days :
  Forall (fun s => sizes_ok (spec_of_std s) /\ Forall (fun c => cmd_ts c <= 200 /\ data_ok (spec_of_std s) c) (commands (noisy_day s)) /\
                   exists st, stats_after (spec_of_std s) None (noisy_day s) 200 = Value st /\ ss_readBus st <> stats0 /\ ss_writeBus st <> stats0)
         [DDR4; DDR5; LPDDR4; LPDDR5; LPDDR6].
Proof.
  repeat (apply Forall_cons; [|]); [..|apply Forall_nil].
  all: split; [split; [reflexivity|split; reflexivity]|].
  all: split; [|eexists; split; [vm_compute; reflexivity|split; discriminate]].
  all: cbn [commands noisy_day a_day app flat_map]; split_cmds.
  all: split; [discriminate|].
  all: intros S; try discriminate S; clear S.
  all: split; [discriminate|].
  all: split; [repeat constructor|].
  all: split; [discriminate|reflexivity].
Qed.
Lemma noisy_words :
  data_drives (spec_of_std LPDDR4) true false (0, 0) [Do (cmd_at 20 RD 1 0 9 row1); SetDbi true; Do (cmd_at 40 RD 1 0 9 row1)] =
    [(40, [85; 170; 240; 15; 0; 255; 0; 255]); (80, [85; 170; 240; 15; 0; 0; 0; 0])].
Proof. vm_compute. reflexivity. Qed.
Lemma estimated_days :
  Forall (fun s => sizes_ok (spec_of_std s) /\
                   (forall read, toggles_in_order (dq_lines (spec_of_std s)) (fi_rate (spec_of_std s)) 0 200 (burst_lengths (spec_of_std s) read (commands (a_day s)))) /\
                   exists st, stats_after (spec_of_std s) (Some half_rates) (a_day s) 200 = Value st /\ ss_togRead st <> stats0 /\ ss_togWrite st <> stats0)
         [DDR4; DDR5; LPDDR4; LPDDR5; LPDDR6].
Proof.
  repeat (apply Forall_cons; [|]); [..|apply Forall_nil].
  all: split; [split; [reflexivity|split; reflexivity]|].
  all: split; [|eexists; split; [vm_compute; reflexivity|split; discriminate]].
  all: intros [|]; (split; [discriminate|]); (split; [reflexivity|discriminate]).
Qed.
