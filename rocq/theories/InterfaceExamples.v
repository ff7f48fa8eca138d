(* Concrete interfaces and command sequences for the examples. *)
From Coq Require Import NArith QArith List Bool.
From Verif Require Import Base Command CoreModel Bits BusModel WaveSpec BusProofs ClockProofs BitFacts ToggleModel StatsModel PatternModel PatternTables InterfaceModel InterfaceSpec.
Import ListNotations.
Local Open Scope N_scope.

(* Eight lines, bursts of eight, one rank. *)
Definition spec_of_std (s : standard) : ifspec :=
  match s with
  | LPDDR6 => mkIfspec LPDDR6 2 24 12 1 1 2 1 false MBG 4 (fun n => n) None
  | LPDDR5 => mkIfspec LPDDR5 4 16 8 1 1 2 2 true MBG 4 (fun n => n) None
  | _ => mkIfspec s 2 8 8 1 1 2 1 false MBG 4 (fun n => n) None
  end.
Definition cmd_at (t : N) (ty : CmdType) (bank row col : N) (data : list N) : Command :=
  mkCommand t ty bank 0 0 row col 0 data (8 * N.of_nat (length data)).
Definition row1 : list N := [255; 0; 255; 0; 15; 240; 170; 85].
Definition row2 : list N := row1 ++ row1.
Definition long_row : list N := row2 ++ row2.
(* Activate, read, write, precharge; a power-down round trip. *)
Definition a_day (s : standard) : list call :=
  match s with
  | LPDDR6 => [Do (cmd_at 0 ACT 0 3 0 []); Do (cmd_at 20 RD 0 0 9 long_row); Do (cmd_at 60 WR 0 0 9 long_row); Disable 100; Enable 110; Do (cmd_at 120 PREA 0 0 0 []); Do (cmd_at 200 END_OF_SIMULATION 0 0 0 [])]
  | LPDDR5 => [Do (cmd_at 0 ACT 1 3 0 []); Do (cmd_at 20 RD 1 0 9 row2); SetDbi true; Do (cmd_at 60 WR 1 0 9 row2); Do (cmd_at 120 PREA 0 0 0 []); Do (cmd_at 200 END_OF_SIMULATION 0 0 0 [])]
  | _ => [Do (cmd_at 0 ACT 1 3 0 []); Do (cmd_at 20 RD 1 0 9 row1); Do (cmd_at 60 WR 1 0 9 row1); Do (cmd_at 120 PREA 0 0 0 []); Do (cmd_at 200 END_OF_SIMULATION 0 0 0 [])]
  end.
Definition stats_after (p : ifspec) (sim : option toggle_def) (xs : list call) (t : N) : result sim_stats :=
  i <- iface_new p sim ;; i <- calls_run xs i ;; if_window i t sim_stats0.
