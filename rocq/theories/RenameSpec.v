(* Vocabulary for giving other numbers to the ranks and banks. *)
From Coq Require Import NArith List Bool.
From Verif Require Import Base Command CoreModel HistorySpec DeviceSpec.
Import ListNotations.
Local Open Scope N_scope.

(* f gives each of the numbers below n another number below n. *)
Definition renumbers (n : nat) (f : nat -> nat) : Prop :=
  (forall i, (i < n)%nat -> (f i < n)%nat) /\ (forall i j, (i < n)%nat -> (j < n)%nat -> f i = f j -> i = j).

(* The command with rank and banks renumbered. *)
Definition rename (sg pi : nat -> nat) (c : Command) : Command :=
  mkCommand (cmd_ts c) (cmd_type c) (N.of_nat (pi (N.to_nat (cmd_bank c)))) (cmd_bankGroup c) (N.of_nat (sg (N.to_nat (cmd_rank c))))
    (cmd_row c) (cmd_column c) (N.of_nat (pi (N.to_nat (cmd_dbank c)))) (cmd_data c) (cmd_sz_bits c).

(* The renamed command addresses the renamed banks.  For commands that name all
   the banks they address this holds for every renumbering; refreshes and
   precharges of a bank in every bank group, and refreshes of two banks a fixed
   distance apart, need one that keeps groups or distances. *)
Definition compatible (p : memspec) (sg pi : nat -> nat) (c : Command) : Prop :=
  forall i, (i < ms_banks p)%nat -> footprint p (rename sg pi c) (pi i) = footprint p c i.
(* Every bank of a command that names its banks is named. *)
Definition names_banks (k : CmdType) : bool := match k with PRESB | REFSB | REFP2B => false | _ => true end.
(* Banks with the same index inside their groups keep having the same index. *)
Definition keeps_indices (p : memspec) (pi : nat -> nat) : Prop :=
  forall i j, (i < ms_banks p)%nat -> (j < ms_banks p)%nat ->
    (Nat.modulo (pi i) (ms_banksPerGroup p) = Nat.modulo (pi j) (ms_banksPerGroup p) <-> Nat.modulo i (ms_banksPerGroup p) = Nat.modulo j (ms_banksPerGroup p)).
