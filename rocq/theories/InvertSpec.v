(* Which calls an interface takes when the data may be inverted: the yardstick for
   C72. *)
From Coq Require Import NArith List Bool.
From Verif Require Import Base Command CoreModel Bits PinSpec InterfaceModel InterfaceSpec ProgressSpec TakenSpec LineSpec FlagSpec StorageSpec.
Import ListNotations.
Local Open Scope N_scope.

(* Commands, and switches of the inversion and of the metadata, in any order. *)
Definition plain_call (x : call) : Prop := match x with Do _ | SetDbi _ | SetMeta _ _ => True | _ => False end.
(* While the wires are watched all bursts have the same size, a number of whole
   bytes. *)
Definition same_size (bits : N) (bus : bool) (c : Command) : Prop :=
  bus = true -> transfers (cmd_type c) <> None -> cmd_sz_bits c = bits /\ bits mod 8 = 0.
(* Every line is told levels in order and has room for those told for one time. *)
Definition lines_allowed (p : ifspec) (bus : bool) (xs : list call) : Prop :=
  forall read line, (line < flag_lines p)%nat -> let l := told_line p bus read line false None xs in
    onwards 0 l /\ roomy (line_storage (fi_std p)) (grouped l).
(* A burst leaves room for one level more on every line. *)
Definition short_burst (p : ifspec) (c : Command) : Prop := cmd_sz_bits c <= dq_lines p * (N.of_nat (line_storage (fi_std p)) - 1).
Fixpoint in_order (from : N) (cs : list Command) : Prop := match cs with [] => True | c :: r => from <= cmd_ts c /\ in_order (cmd_ts c) r end.
