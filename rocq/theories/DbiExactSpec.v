(* What the two inversion rules decide, chunk by chunk: the yardstick for the
   exact parts of C19 and C20.  Speaks about entries on the wires only. *)
From Coq Require Import NArith List Bool Arith.
From Verif Require Import Base Bits WaveSpec DbiSpec.
Import ListNotations.
Local Open Scope N_scope.

(* Sum of a measure over the entries at some places. *)
Definition tally (f : nat -> N) (places : list nat) : N := fold_right N.add 0 (map f places).

(* Which entries are looked at when chunk [ch], of [size] entries, is decided,
   apart from its own first entry: the others of the chunk before it. *)
Definition earlier (size ch : nat) : list nat :=
  match ch with O => [] | S before => seq (before * size + 1) (size - 1) end.

(* The static rule.  [out]: what has been put on the wires, [data]: what was
   handed over.  A chunk is inverted exactly when more than half of the lines
   looked at consume current. *)
Definition static_rule (digits size : nat) (high : bool) (data out : list N) (ch : nat) : bool :=
  N.of_nat digits * N.of_nat (S (length (earlier size ch))) <?
  2 * (tally (fun i => consuming digits high (nth i out 0)) (earlier size ch) +
       consuming digits high (nth (ch * size) data 0)).

(* The dynamic rule: the same entries, each against the entry one beat earlier
   on the same wires; [first] is the beat before the burst. *)
Definition dynamic_rule (digits size : nat) (threshold : N) (first data out : list N) (ch : nat) : bool :=
  threshold <?
  tally (fun i => toggling digits (nth i (first ++ out) 0) (nth i out 0)) (earlier size ch) +
  toggling digits (nth (ch * size) (first ++ out) 0) (nth (ch * size) data 0).

(* What is on the wires when a rule has decided. *)
Definition complement (digits : nat) (v : N) : N := N.lxor v (N.ones (N.of_nat digits)).
Definition follows (digits size : nat) (rule : nat -> bool) (data out : list N) : Prop :=
  forall i, (i < length out)%nat ->
    nth i out 0 = if rule (Nat.div i size) then complement digits (nth i data 0) else nth i data 0.

(* A series of bursts of equal size under the dynamic rule.  [ended]: when the
   last burst of either direction ended; [wires]: the last burst sent, in
   whatever direction.  The beat before a burst is the last beat of [wires] if
   the burst follows one in its own direction without a gap and has more than
   one beat, and the idle level otherwise. *)
Definition before_burst (beats per_beat : nat) (idle : N) (ended : bool -> option N) (wires : list N) (o : transfer) : list N :=
  match ended (tr_read o) with
  | Some e => if (e =? tr_time o) && Nat.leb 2 beats then beat_of per_beat wires (beats - 1) else repeat idle per_beat
  | None => repeat idle per_beat
  end.
Fixpoint decided (digits size beats per_beat : nat) (idle threshold : N) (ended : bool -> option N) (wires : list N)
  (ops : list transfer) (outs : list (list N)) : Prop :=
  match ops, outs with
  | [], [] => True
  | o :: ops, out :: outs =>
      length out = (beats * per_beat)%nat /\
      follows digits size
        (dynamic_rule digits size threshold (before_burst beats per_beat idle ended wires o) (tr_data o) out) (tr_data o) out /\
      decided digits size beats per_beat idle threshold
        (fun read => if Bool.eqb read (tr_read o) then Some (tr_time o + N.of_nat beats) else ended read) out ops outs
  | _, _ => False
  end.
