(* Which commands of a history take a rank into self-refresh and into deep sleep by a
   given time. *)
From Coq Require Import NArith List Bool.
From Verif Require Import Base Command CoreModel HistorySpec.
Local Open Scope N_scope.

(* A self-refresh entry to rank [r] whose refresh is over at [t]. *)
Definition asleep_by (p : memspec) (r : nat) (t : N) (c : Command) : bool :=
  is_cmd SREFEN c && Nat.eqb (N.to_nat (cmd_rank c)) r && ((cmd_ts c + ms_tRFC p) mod two64 <=? t).
(* A deep sleep entry to rank [r]. *)
Definition deep_entry (r : nat) (c : Command) : bool := is_cmd DSMEN c && Nat.eqb (N.to_nat (cmd_rank c)) r.
(* How many commands of a history are of a kind. *)
Definition how_many (f : Command -> bool) (cs : list Command) : N := N.of_nat (length (filter f cs)).
