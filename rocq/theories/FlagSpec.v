(* What an interface tells its inversion lines, from the calls alone: the yardstick
   for C71. *)
From Coq Require Import NArith List Bool Arith.
From Verif Require Import Base Command CoreModel Bits WaveSpec PinModel PinSpec DbiPinSpec InterfaceModel InterfaceSpec WireSpec LineSpec.
Import ListNotations.
Local Open Scope N_scope.

(* One line for eight data lines; none on DDR5, which has no inversion, and on
   LPDDR6, which sends the flags with the data. *)
Definition flag_lines (p : ifspec) : nat :=
  match fi_std p with DDR5 | LPDDR6 => 0 | _ => Nat.div (N.to_nat (dq_lines p)) 8 end.
(* The flags of a burst on one line: those of every n-th byte. *)
Definition line_flags (p : ifspec) (line : nat) (c : Command) : list bool :=
  map (flipped p (cmd_data c)) (filter (fun j => Nat.eqb (Nat.modulo j (flag_lines p)) line) (seq 0 (Nat.div (N.to_nat (cmd_sz_bits c)) 8))).

(* A line that was left inverted at the end of a burst, at beat e, is told to
   return to rest the next time somebody looks, if that is later: at time t. *)
Definition back_to_rest (high : bool) (held : option N) (t : N) : tellings :=
  match held with Some e => if e <? t then [(t, high)] else [] | None => [] end.
Definition still_held (held : option N) (t : N) : option N :=
  match held with Some e => if e <? t then None else held | None => None end.

(* The levels a line of one direction is told, from the present switch of the
   inversion and from where the line was left.  A flag is shown as the level away
   from rest.  Nothing is told while only estimates are made. *)
Fixpoint told_line (p : ifspec) (bus read : bool) (line : nat) (dbi : bool) (held : option N) (xs : list call) : tellings :=
  let high := dq_rests_high (fi_std p) in
  match xs with
  | [] => []
  | Do c :: r =>
      if sends read c && dbi && bus then
        let t := cmd_ts c * fi_rate p in
        back_to_rest high held t ++ map (fun b => (t, xorb high b)) (line_flags p line c) ++
        told_line p bus read line dbi (if last (line_flags p line c) false then Some (t + burst_beats p true c) else None) r
      else match cmd_type c with
           | END_OF_SIMULATION => back_to_rest high held (cmd_ts c) ++ told_line p bus read line dbi (still_held held (cmd_ts c)) r
           | _ => told_line p bus read line dbi held r
           end
  | SetDbi e :: r => told_line p bus read line (if has_dbi p then e else dbi) held r
  | _ :: r => told_line p bus read line dbi held r
  end.

(* The lines of one direction together, up to beat n. *)
Definition flag_stats (p : ifspec) (bus read : bool) (xs : list call) (n : N) : bus_stats :=
  let rest := if dq_rests_high (fi_std p) then PinH else PinL in
  sum_pins (flag_lines p) (fun line => told_wave rest rest (grouped (told_line p bus read line false None xs)) n).
(* Nothing has been entered for the inversion lines yet. *)
Definition flags_blank (st : StatsModel.sim_stats) : Prop := StatsModel.ss_readDBI st = stats0 /\ StatsModel.ss_writeDBI st = stats0.
