(* A device that watches the command bus. *)
From Coq Require Import NArith List Bool Arith.
From Verif Require Import Base Command Bits WaveSpec PatternModel PatternTables DecodeSpec InterfaceModel InterfaceSpec.
Import ListNotations.
Local Open Scope N_scope.

(* Pin [i] from beat [first] on, where every beat carries [width] pins, the first one
   on the highest line. *)
Definition seen (width : nat) (on_wires : N -> N) (first : N) (i : nat) : bool :=
  level (on_wires (first + N.of_nat (Nat.div i width))) (width - 1 - Nat.modulo i width).

(* The bank architecture of LPDDR5. *)
Definition banks_as (a : bank_arch) : banking := match a with MBG => FourGroups | M16B => SixteenBanks | M8B => EightBanks end.

(* What a device of the standard makes of the pins of [n] commands in a row; only
   DDR4 has commands that follow each other. *)
Definition device_hears (s : standard) (a : bank_arch) (n : nat) (v : nat -> bool) : list heard :=
  match s with
  | DDR4 => map (fun k => ddr4_hears (fun i => v (27 * k + i)%nat)) (seq 0 n)
  | DDR5 => [ddr5_hears v]
  | LPDDR4 => [lpddr4_hears v]
  | LPDDR5 => [lpddr5_hears (banks_as a) v]
  | LPDDR6 => [lpddr6_hears v]
  end.
(* What it should hear of a command.  In LPDDR6 the second bank is eight banks on. *)
Definition device_meant (s : standard) (a : bank_arch) (c : Command) : list heard :=
  let b := cmd_bank c in let g := cmd_bankGroup c in let r := cmd_row c in let k := cmd_column c in let t := cmd_type c in
  match s with
  | DDR4 => ddr4_meant b g r k t
  | DDR5 => [ddr5_meant b g r k t]
  | LPDDR4 => [lpddr4_meant b r k t]
  | LPDDR5 => [lpddr5_meant b g r k (banks_as a) t]
  | LPDDR6 => [lpddr6_meant b g r k ((b + 8) mod 16) t]
  end.
