(* What a single pin shows when it is told levels one by one, in whatever order
   and however often: the yardstick for C71.  Says nothing about how the library
   counts. *)
From Coq Require Import NArith List Bool.
From Verif Require Import Base Bits WaveSpec PinModel PinSpec.
Import ListNotations.
Local Open Scope N_scope.

(* A pin is told levels, each with a time; levels told for the same time follow
   each other from that time on. *)
Definition tellings := list (N * bool).
Definition tell (bs : bursts) (x : N * bool) : bursts :=
  match rev bs with
  | (t, bits) :: r => if t =? fst x then rev r ++ [(t, bits ++ [snd x])] else bs ++ [(fst x, [snd x])]
  | [] => [(fst x, [snd x])]
  end.
Definition grouped (l : tellings) : bursts := fold_left tell l [].
(* Times never go back. *)
Fixpoint onwards (from : N) (l : tellings) : Prop :=
  match l with [] => True | x :: r => from <= fst x /\ onwards (fst x) r end.
(* The time told last. *)
Definition told_last (l : tellings) : N := fold_left (fun _ x => fst x) l 0.

(* In beat i the pin shows the level of the group that began last; when that
   group is over it is idle.  A group that begins ends the one before. *)
Definition shown (idle : pin_state) (bs : bursts) (i : N) : pin_state :=
  match find (fun d => fst d <=? i) (rev bs) with
  | Some d => match nth_error (snd d) (N.to_nat (i - fst d)) with Some b => driven_level b | None => idle end
  | None => idle
  end.
(* A group begins at i while the one before still had levels to show. *)
Definition cut_short (bs : bursts) (i : N) : bool :=
  existsb (fun d => fst d =? i) bs &&
  match find (fun d => fst d <? i) (rev bs) with Some d => i <? fst d + N.of_nat (length (snd d)) | None => false end.
(* What the beat is compared with: the pin in the beat before, but the idle level
   when the group before has been cut short.  Before beat 0 it has its initial
   level. *)
Definition shown_before (init idle : pin_state) (bs : bursts) (i : N) : pin_state :=
  if i =? 0 then init else if cut_short bs i then idle else shown idle bs (i - 1).
Definition told_wave (init idle : pin_state) (bs : bursts) (beats : N) : bus_stats :=
  sum_beats (fun i => pin_beat (shown_before init idle bs i) (shown idle bs i)) (N.to_nat beats).

(* The calls of set. *)
Fixpoint pin_told (l : tellings) (p : pin) : result pin :=
  match l with [] => Value p | x :: r => p <- pin_set p (fst x) (driven_level (snd x)) 1 ;; pin_told r p end.
(* Every group fits into the storage and ends within 64 bits. *)
Definition roomy (max : nat) (bs : bursts) : Prop := Forall (fun d => (length (snd d) <= max)%nat) bs.
Definition in_time (bs : bursts) : Prop := Forall (fun d => fst d + N.of_nat (length (snd d)) < two64) bs.
