(* A receiver at the data lines. *)
From Coq Require Import NArith List Bool Arith.
From Verif Require Import Base Command CoreModel Bits WaveSpec FormatSpec InterfaceModel InterfaceSpec WireSpec PinModel PinSpec LineSpec FlagSpec.
Import ListNotations.
Local Open Scope N_scope.

(* Bit [k] of a burst of [n] beats on [w] lines that begins in beat [first]: the
   beats come from the last word to the first one. *)
Definition sampled (w : nat) (on_wires : N -> N) (first : N) (n k : nat) : bool :=
  level (on_wires (first + N.of_nat (n - 1 - Nat.div k w))) (Nat.modulo k w).
(* LPDDR6: pin [q] in beat [t] of half [h] of a frame of [halves], spread over [w]
   lines. *)
Definition framed (w : nat) (on_wires : N -> N) (first : N) (halves : nat) (h t q : nat) : bool :=
  sampled w on_wires first (Nat.div (288 * halves) w) (288 * halves - 1 - (288 * h + 12 * t + q)).

(* The switch of the inversion and the metadata after some calls. *)
Definition switched_on (p : ifspec) (xs : list call) : bool :=
  fold_left (fun d x => match x with SetDbi e => has_dbi p && e | _ => d end) xs false.
Definition last_meta (xs : list call) : N * N :=
  fold_left (fun m x => match x with SetMeta a b => (a mod 65536, b mod 65536) | _ => m end) xs (0, 0).

(* A receiver that looks at the inversion lines in the same beat as at the data:
   byte [j] of the word in beat [b] is inverted when line [j] is away from rest. *)
Definition away (high : bool) (s : pin_state) : bool := match s with PinH => negb high | PinL => high | PinZ => false end.
Definition same_beat (p : ifspec) (read : bool) (xs : list call) (first : N) (n k : nat) : bool :=
  let w := N.to_nat (dq_lines p) in
  let high := dq_rests_high (fi_std p) in
  let rest := if high then PinH else PinL in
  let line := Nat.div (Nat.modulo k w) 8 in
  let beat := first + N.of_nat (n - 1 - Nat.div k w) in
  xorb (away high (shown rest (grouped (told_line p true read line false None xs)) beat))
       (sampled w (wire (idle_word w high) (data_drives p read false (0, 0) xs)) first n k).
