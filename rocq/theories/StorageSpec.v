(* How many levels an inversion line holds: the longest burst of the standard. *)
From Verif Require Import Command.

Definition line_storage (s : standard) : nat := match s with DDR4 => 8 | _ => 32 end.
