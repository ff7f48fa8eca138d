(* Reading off every counter of a statistics record by name. *)
From Coq Require Import NArith List Bool.
From Verif Require Import Base Command CoreModel Bits StatsModel.
Import ListNotations.
Local Open Scope N_scope.

Inductive bus_name := CommandBus | ReadBus | WriteBus | ClockStats | WClockStats | ReadDBI | WriteDBI | TogglingRead | TogglingWrite | ReadDQS | WriteDQS.
Inductive bus_field := Ones | Zeroes | BitChanges | OnesToZeroes | ZeroesToOnes.
Inductive cycle_field := Act | Pre | PowerDownAct | PowerDownPre | SelfRefresh | DeepSleep.
Inductive prepos_field := ReadMerged | ReadMergedTime | WriteMerged | WriteMergedTime | ReadSeamless | WriteSeamless.
Inductive part := Counter (k : ckind) | Cycles (f : cycle_field) | Prepos (f : prepos_field).
Inductive place := OnBus (b : bus_name) (f : bus_field) | OfBank (i : nat) (p : part) | OfRank (i : nat) (p : part).

Definition bus_at (s : sim_stats) (b : bus_name) : bus_stats :=
  match b with
  | CommandBus => ss_commandBus s | ReadBus => ss_readBus s | WriteBus => ss_writeBus s | ClockStats => ss_clock s | WClockStats => ss_wClock s
  | ReadDBI => ss_readDBI s | WriteDBI => ss_writeDBI s | TogglingRead => ss_togRead s | TogglingWrite => ss_togWrite s
  | ReadDQS => ss_readDQS s | WriteDQS => ss_writeDQS s
  end.
Definition field_at (s : bus_stats) (f : bus_field) : N :=
  match f with Ones => ones s | Zeroes => zeroes s | BitChanges => changes s | OnesToZeroes => o2z s | ZeroesToOnes => z2o s end.
Definition part_at (c : cycle_stats) (p : part) : N :=
  match p with
  | Counter k => cs_get k (cs_counter c)
  | Cycles f => let y := cs_cycles c in
      match f with Act => cy_act y | Pre => cy_pre y | PowerDownAct => cy_pda y | PowerDownPre => cy_pdp y | SelfRefresh => cy_sref y | DeepSleep => cy_dsm y end
  | Prepos f => let y := cs_prepos c in
      match f with ReadMerged => pp_rm y | ReadMergedTime => pp_rmt y | WriteMerged => pp_wm y | WriteMergedTime => pp_wmt y
      | ReadSeamless => pp_rs y | WriteSeamless => pp_ws y end
  end.
(* The counter at a place; a bank or rank that is not there counts zero. *)
Definition count_at (s : sim_stats) (x : place) : N :=
  match x with
  | OnBus b f => field_at (bus_at s b) f
  | OfBank i p => match nth_error (ss_bank s) i with Some c => part_at c p | None => 0 end
  | OfRank i p => match nth_error (ss_rank s) i with Some c => part_at c p | None => 0 end
  end.
(* Every counter is a 64-bit number. *)
Definition in_range (s : sim_stats) : Prop := forall x, count_at s x < two64.
