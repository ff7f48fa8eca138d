(* Which commands can open a bank, and which can precharge it. *)
From Coq Require Import NArith List Bool.
From Verif Require Import Base Command CoreModel HistorySpec.
Import ListNotations.
Local Open Scope N_scope.

(* A refresh opens the banks it refreshes for as long as it lasts. *)
Definition opens (p : memspec) (b : nat) (c : Command) : bool :=
  match cmd_type c with
  | ACT | REFB => Nat.eqb (addr c) b
  | REFSB => same_index p (addr c) b
  | REFP2B => Nat.eqb (addr c) b || Nat.eqb (Nat.modulo (addr c + ms_p2bOffset p) 16) b
  | REFDB => Nat.eqb (addr c) b || Nat.eqb (N.to_nat (cmd_dbank c)) b
  | REFA | SREFEN => true
  | _ => false
  end.
(* A precharge, at once or at the end of a read or write. *)
Definition precharges (p : memspec) (b : nat) (c : Command) : bool :=
  match cmd_type c with
  | PRE | RDA | WRA => Nat.eqb (addr c) b
  | PRESB => same_index p (addr c) b
  | PREA => true
  | _ => false
  end.
(* How many commands to a rank are such. *)
Definition amount (f : Command -> bool) (r : nat) (cs : list Command) : N :=
  N.of_nat (length (filter (fun c => Nat.eqb (N.to_nat (cmd_rank c)) r && f c) cs)).
