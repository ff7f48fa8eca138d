(* Days on which the inversion is switched and lines are left inverted. *)
From Coq Require Import NArith List Bool.
From Verif Require Import Base Command CoreModel Bits BusModel WaveSpec ToggleModel PinModel StatsModel InterfaceModel InterfaceSpec WireSpec InterfaceExamples WireExamples LineSpec FlagSpec.
Import ListNotations.
Local Open Scope N_scope.

(* Payloads whose last byte is inverted. *)
Definition shout (s : standard) : list N :=
  match s with DDR4 => [255; 0; 255; 0] | DDR5 => row1 | LPDDR6 => long_row | _ => [0; 255; 0; 255; 15; 0; 0; 255] end.
Definition flag_day (s : standard) : list call :=
  [SetDbi true; Do (cmd_at 10 ACT 0 5 0 []); Do (cmd_at 20 RD 0 0 9 (shout s)); Do (cmd_at 60 RD 0 0 9 (shout s)); SetDbi false; Do (cmd_at 90 RD 0 0 9 (shout s)); SetDbi true;
   Do (cmd_at 120 RD 0 0 9 (shout s)); Do (cmd_at 150 WR 0 0 9 (shout s)); Do (cmd_at 190 WR 0 0 9 (shout s)); Do (cmd_at 950 END_OF_SIMULATION 0 0 0 [])].
Lemma flag_days :
  Forall (fun s => sizes_ok (spec_of_std s) /\ Forall (fun c => cmd_ts c <= 1000 /\ data_ok (spec_of_std s) c) (commands (flag_day s)) /\
                   1000 * fi_rate (spec_of_std s) + 64 < two64 /\
                   exists st, stats_after (spec_of_std s) None (flag_day s) 1000 = Value st /\ (flag_lines (spec_of_std s) <> 0%nat -> ones (ss_readDBI st) <> 0 /\ changes (ss_writeDBI st) <> 0))
         [DDR4; DDR5; LPDDR4; LPDDR5; LPDDR6].
Proof.
  repeat (apply Forall_cons; [|]); [..|apply Forall_nil].
  all: split; [split; [reflexivity|split; reflexivity]|].
  all: split; [|split; [reflexivity|eexists; split; [vm_compute; reflexivity|intros N; try (destruct N; reflexivity); split; discriminate]]].
  all: cbn [commands flag_day app flat_map]; split_cmds.
  all: split; [discriminate|].
  all: intros S; try discriminate S; clear S.
  all: split; [discriminate|].
  all: split; [repeat constructor|].
  all: split; [discriminate|reflexivity].
Qed.
