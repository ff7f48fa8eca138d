(* The LPDDR6 burst frame: 24 beats of 12 pins per half, written down directly.
   Pins 4, 5, 10 and 11 carry metadata in beats 8-11 and inversion flags in
   beats 20-23; everything else is data. *)
From Coq Require Import NArith List Bool Arith.
From Verif Require Import Base WaveSpec.
Import ListNotations.

(* What a pin shows: data bit i of the burst, metadata bit i of its half, or
   inversion flag i of the burst. *)
Inductive source := Data (i : nat) | Meta (half i : nat) | Flag (i : nat).

(* Number of the four extra pins. *)
Definition extra_pin (q : nat) : option nat := match q with 4 => Some 0 | 5 => Some 1 | 10 => Some 2 | 11 => Some 3 | _ => None end.
(* Number of a pin among the eight others. *)
Definition plain_pin (q : nat) : nat := if Nat.ltb q 4 then q else q - 2.
(* First data bit of each group of four beats. *)
Definition group_base (g : nat) : nat := nth g [0; 48; 96; 128; 176; 224] 0.
(* The source shown in half h, beat t, pin q. *)
Definition shows (h t q : nat) : source :=
  let base := 256 * h + group_base (t / 4) + t mod 4 in
  match t / 4, extra_pin q with
  | 2, Some k => Meta h (4 * k + (t - 8))
  | 5, Some k => Flag (16 * h + 4 * k + (t - 20))
  | 2, None | 5, None => Data (base + 4 * plain_pin q)
  | _, _ => Data (base + 4 * q)
  end.
(* Its value. *)
Definition source_value (data : list N) (meta : nat -> N) (inv : list bool) (s : source) : bool :=
  match s with
  | Data i => payload_bit data i
  | Meta h i => N.testbit (meta h) (N.of_nat i)
  | Flag i => nth i inv false
  end.
(* The sources of a burst of n halves. *)
Definition source_of (n : nat) (s : source) : Prop :=
  match s with Data i => i < 256 * n | Meta h i => h < n /\ i < 16 | Flag i => i < 16 * n end.
Definition position (n : nat) (p : nat * nat * nat) : Prop := match p with (h, t, q) => h < n /\ t < 24 /\ q < 12 end.
