(* What a group of wires does, beat by beat.  This file says nothing about how
   the library counts; it is the yardstick for C14, C15, C24, C38. *)
From Coq Require Import NArith List Bool.
From Verif Require Import Base Bits.
Import ListNotations.
Local Open Scope N_scope.

(* Number of lines below width with property f. *)
Definition lines (width : nat) (f : nat -> bool) : N := N.of_nat (length (filter f (seq 0 width))).

(* Level of line j when the wires carry the word w. *)
Definition level (w : N) (j : nat) : bool := N.testbit w (N.of_nat j).

(* What one beat adds when the wires carry q, having carried p before: lines
   high, lines low, lines changing, falling, rising. *)
Definition beat_stats (width : nat) (p q : N) : bus_stats :=
  mkStats (lines width (level q)) (lines width (fun j => negb (level q j)))
          (lines width (fun j => xorb (level p j) (level q j)))
          (lines width (fun j => level p j && negb (level q j)))
          (lines width (fun j => negb (level p j) && level q j)).

(* Exact (unbounded) addition of statistics, and reduction to 64 bits. *)
Definition add_exact (a b : bus_stats) : bus_stats :=
  mkStats (ones a + ones b) (zeroes a + zeroes b) (changes a + changes b) (o2z a + o2z b) (z2o a + z2o b).
Definition wrap_stats (a : bus_stats) : bus_stats :=
  mkStats (ones a mod two64) (zeroes a mod two64) (changes a mod two64) (o2z a mod two64) (z2o a mod two64).

(* Stretches in which the wires are driven: first beat and the words. *)
Definition drives := list (N * list N).
(* The word on the wires in beat i; idle when nobody drives. *)
Definition wire (idle : N) (ds : drives) (i : N) : N :=
  match find (fun d => (fst d <=? i) && (i <? fst d + N.of_nat (length (snd d)))) ds with
  | Some d => nth (N.to_nat (i - fst d)) (snd d) idle
  | None => idle
  end.
(* The word before beat i; the wires are idle before beat 0. *)
Definition wire_before (idle : N) (ds : drives) (i : N) : N :=
  if i =? 0 then idle else wire idle ds (i - 1).

(* Sum over the beats 0, ..., n-1. *)
Fixpoint sum_beats (f : N -> bus_stats) (n : nat) : bus_stats :=
  match n with
  | O => stats0
  | S k => add_exact (sum_beats f k) (f (N.of_nat k))
  end.
Definition wave_stats (width : nat) (idle : N) (ds : drives) (beats : N) : bus_stats :=
  sum_beats (fun i => beat_stats width (wire_before idle ds i) (wire idle ds i)) (N.to_nat beats).

(* The word whose line j is f j. *)
Fixpoint word_of (width : nat) (f : nat -> bool) : N :=
  match width with
  | O => 0
  | S k => word_of k f + (if f k then 2 ^ N.of_nat k else 0)
  end.

(* Bit k of a payload of bytes. *)
Definition payload_bit (data : list N) (k : nat) : bool :=
  N.testbit (nth (Nat.div k 8) data 0) (N.of_nat (Nat.modulo k 8)).

(* The words of a payload: line j of word i is payload bit i * width + j; a
   last incomplete word is not sent. *)
Definition payload_words (width : nat) (data : list N) (n_bits : nat) : list N :=
  map (fun i => word_of width (fun j => payload_bit data (i * width + j))) (seq 0 (Nat.div n_bits width)).

(* The bus plays the words from the last one to the first one (the first command
   cycle sits in the most significant bits). *)
Definition played (width : nat) (data : list N) (n_bits : nat) : list N :=
  rev (payload_words width data n_bits).

(* All lines low or all lines high. *)
Definition idle_word (width : nat) (high : bool) : N := word_of width (fun _ => high).

(* A load: time in clock cycles, payload, number of bits. *)
Record load_op := mkLoad { lo_time : N; lo_data : list N; lo_bits : nat }.

(* Where the load puts its words on the time axis of beats. *)
Definition drive_of (width : nat) (rate : N) (l : load_op) : N * list N :=
  (lo_time l * rate, played width (lo_data l) (lo_bits l)).

(* A load the caller may issue: at least one full word, enough bytes, and an end
   that still fits into 64 bits. *)
Definition load_ok (width : nat) (rate : N) (l : load_op) : Prop :=
  (width <= lo_bits l)%nat /\ (lo_bits l <= 8 * length (lo_data l))%nat /\
  lo_time l * rate + N.of_nat (Nat.div (lo_bits l) width) < two64.

(* No load starts before beat [from] or before its predecessor has ended. *)
Fixpoint well_timed (width : nat) (rate from : N) (ls : list load_op) : Prop :=
  match ls with
  | [] => True
  | l :: r => from <= lo_time l * rate /\
              well_timed width rate (lo_time l * rate + N.of_nat (Nat.div (lo_bits l) width)) r
  end.

(* First beat of the last load. *)
Definition last_start (rate : N) (ls : list load_op) : N := fold_left (fun _ l => lo_time l * rate) ls 0.
