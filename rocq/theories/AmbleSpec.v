(* What the strobe's pre- and postambles of DDR4 should be counted as.  Written
   without the interface: only from the list of commands. *)
From Coq Require Import NArith List Bool.
From Verif Require Import Base Command Bits InterfaceModel InterfaceSpec.
Import ListNotations.
Local Open Scope N_scope.

(* The bursts of one direction to one rank: first cycle and number of cycles. *)
Definition rank_bursts (p : ifspec) (bus read : bool) (rank : nat) (cs : list Command) : list (N * N) :=
  flat_map (fun c => match transfers (cmd_type c) with
                     | Some r => if eqb r read && Nat.eqb (N.to_nat (cmd_rank c)) rank then [(cmd_ts c, burst_cycles p bus c)] else []
                     | None => []
                     end) cs.
(* Bursts that start in the very cycle in which the previous one has ended need
   neither the postamble of that one nor a preamble of their own. *)
Fixpoint back_to_back (bs : list (N * N)) : N :=
  match bs with
  | b :: ((b' :: _) as r) => (if fst b + snd b =? fst b' then 1 else 0) + back_to_back r
  | _ => 0
  end.
(* A first burst in cycle 0. *)
Definition at_zero (bs : list (N * N)) : N := match bs with b :: _ => if fst b =? 0 then 1 else 0 | [] => 0 end.
(* No burst starts before the previous one has ended. *)
Fixpoint bursts_apart (bs : list (N * N)) : Prop :=
  match bs with
  | b :: ((b' :: _) as r) => fst b + snd b <= fst b' /\ bursts_apart r
  | _ => True
  end.
