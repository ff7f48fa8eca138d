(* Commands whose order does not matter. *)
From Coq Require Import NArith List Bool.
From Verif Require Import Base Command CoreModel HistorySpec DeviceSpec.
Import ListNotations.
Local Open Scope N_scope.

(* Two commands of the same cycle, to different ranks or to different banks. *)
Definition apart (p : memspec) (c c' : Command) : Prop :=
  cmd_ts c = cmd_ts c' /\
  (cmd_rank c <> cmd_rank c' \/
   (mode_command (cmd_type c) = false /\ mode_command (cmd_type c') = false /\
    forall b, footprint p c b = true -> footprint p c' b = true -> False)).

(* One trace comes from the other by exchanging neighbours of this kind. *)
Inductive reordered (p : memspec) : list Command -> list Command -> Prop :=
| R_same cs : reordered p cs cs
| R_swap a c c' z cs : apart p c c' -> reordered p (a ++ c' :: c :: z) cs -> reordered p (a ++ c :: c' :: z) cs.
