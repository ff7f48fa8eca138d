(* The time of the last command an interface was given, whatever the order of the
   calls: the yardstick for C11. *)
From Coq Require Import NArith List Bool.
From Verif Require Import Base Command CoreModel InterfaceModel InterfaceSpec.
Import ListNotations.
Local Open Scope N_scope.

(* Every command sets it, earlier or later; so do switching on and off, when they
   change something. *)
Fixpoint set_last (on : bool) (last : N) (xs : list call) : N :=
  match xs with
  | [] => last
  | Do c :: r => set_last on (cmd_ts c) r
  | Enable t :: r => set_last true (if on then last else t) r
  | Disable t :: r => set_last false (if on then t else last) r
  | _ :: r => set_last on last r
  end.
