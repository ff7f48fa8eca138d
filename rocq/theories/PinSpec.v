(* What a single pin does, beat by beat: the yardstick for C38.  Says nothing
   about how the library counts. *)
From Coq Require Import NArith List Bool.
From Verif Require Import Base Bits WaveSpec PinModel.
Import ListNotations.
Local Open Scope N_scope.

(* A burst: first beat and the levels. *)
Definition bursts := list (N * list bool).

(* A pin is low, high or undriven. *)
Definition driven_level (b : bool) : pin_state := if b then PinH else PinL.

(* The pin in beat i: the level of the burst that covers the beat, idle when no
   burst does. *)
Definition pin_level (idle : pin_state) (bs : bursts) (i : N) : pin_state :=
  match find (fun d => (fst d <=? i) && (i <? fst d + N.of_nat (length (snd d)))) bs with
  | Some d => driven_level (nth (N.to_nat (i - fst d)) (snd d) false)
  | None => idle
  end.
(* The pin before beat i; before beat 0 it has its initial level. *)
Definition pin_before (init idle : pin_state) (bs : bursts) (i : N) : pin_state :=
  if i =? 0 then init else pin_level idle bs (i - 1).

(* What one beat adds: high, low, changed, fell, rose.  Going to or from the
   undriven state is no change. *)
Definition pin_beat (p q : pin_state) : bus_stats :=
  match p, q with
  | PinL, PinH => mkStats 1 0 1 0 1
  | PinH, PinL => mkStats 0 1 1 1 0
  | _, PinH => mkStats 1 0 0 0 0
  | _, PinL => mkStats 0 1 0 0 0
  | _, PinZ => mkStats 0 0 0 0 0
  end.
Definition pin_wave (init idle : pin_state) (bs : bursts) (beats : N) : bus_stats :=
  sum_beats (fun i => pin_beat (pin_before init idle bs i) (pin_level idle bs i)) (N.to_nat beats).

(* Each burst has between 1 and max beats, starts no earlier than its
   predecessor ends, and ends within 64 bits. *)
Fixpoint bursts_ok (max : nat) (from : N) (bs : bursts) : Prop :=
  match bs with
  | [] => True
  | d :: r => from <= fst d /\ (1 <= length (snd d) <= max)%nat /\ fst d + N.of_nat (length (snd d)) < two64 /\
              bursts_ok max (fst d + N.of_nat (length (snd d))) r
  end.
(* First beat of the last burst. *)
Definition last_burst (bs : bursts) : N := fold_left (fun _ d => fst d) bs 0.

(* The library sends a burst as one call of set per beat, all with the time of
   the first beat. *)
Fixpoint pin_send (t : N) (levels : list bool) (p : pin) : result pin :=
  match levels with
  | [] => Value p
  | b :: r => p <- pin_set p t (driven_level b) 1 ;; pin_send t r p
  end.
Fixpoint pin_run (bs : bursts) (p : pin) : result pin :=
  match bs with
  | [] => Value p
  | d :: r => p <- pin_send (fst d) (snd d) p ;; pin_run r p
  end.
