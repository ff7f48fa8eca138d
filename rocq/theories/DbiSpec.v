(* What data bus inversion must achieve: the yardstick for C18, C19, C20.
   Speaks about bits of entries, and about what a receiver learns. *)
From Coq Require Import NArith List Bool.
From Verif Require Import Base Bits WaveSpec PinModel DbiModel.
Import ListNotations.
Local Open Scope N_scope.

(* Where and when the inversion of a chunk is signalled: with n DBI pins, on pin
   chunk mod n in beat chunk / n; without known width, chunk by chunk. *)
Definition signals (pins : option nat) (t : N) (chunk : nat) (e : event) : bool :=
  match pins with
  | Some n => (ev_time e =? t + N.of_nat (Nat.div chunk n)) && Nat.eqb (ev_index e) (Nat.modulo chunk n)
  | None => (ev_time e =? t) && Nat.eqb (ev_index e) chunk
  end.
(* What a receiver of the calls knows about a chunk at the end. *)
Definition heard (pins : option nat) (t : N) (ev : list event) (chunk : nat) : option bool :=
  fold_left (fun known e => if signals pins t chunk e then Some (ev_inverted e) else known) ev None.

(* The receiver's data: bit j of entry i, complemented where the chunk is
   inverted. *)
Definition received (inverted : bool) (entry : N) (j : nat) : bool := xorb inverted (level entry j).

(* Lines of an entry that are away from the idle level. *)
Definition consuming (digits : nat) (idle_high : bool) (v : N) : N :=
  lines digits (fun j => xorb idle_high (level v j)).
(* Lines that differ between two entries. *)
Definition toggling (digits : nat) (p q : N) : N := lines digits (fun j => xorb (level p j) (level q j)).

(* A configuration the library instantiates: at least one digit and one
   sub-chunk, and a bus width that is a positive multiple of the chunk size. *)
Definition dbi_config_ok (c : dbi_config) : Prop :=
  (0 < dg_digits c)%nat /\ (0 < dg_sub c)%nat /\
  match dg_width c with Some w => exists n, (0 < n)%nat /\ w = (n * (dg_sub c * dg_digits c))%nat | None => True end.
(* Number of DBI pins. *)
Definition dbi_pins (c : dbi_config) : option nat :=
  match dg_width c with Some w => Some (Nat.div w (dg_sub c * dg_digits c)) | None => None end.

(* A burst handed to the inverter. *)
Record transfer := mkTransfer { tr_time : N; tr_read : bool; tr_data : list N }.
(* A series of bursts; collects what the inverter returns. *)
Fixpoint dbi_run (bits : nat) (ops : list transfer) (d : dbi) : result (dbi * list (list N)) :=
  match ops with
  | [] => Value (d, [])
  | o :: r =>
      x <- dbi_update d (tr_time o) bits (Some (tr_data o)) (tr_read o) ;;
      let '(d, _, out) := x in
      y <- dbi_run bits r d ;;
      Value (fst y, (match out with Some l => l | None => tr_data o end) :: snd y)
  end.

(* One beat of the wires: the entries of one bus width, number [beat] of a burst. *)
Definition beat_of (per_beat : nat) (data : list N) (beat : nat) : list N := firstn per_beat (skipn (beat * per_beat) data).

(* Consecutive beats on the wires of one direction: every entry of every burst
   differs from the entry on the same wires one beat earlier in at most [bound]
   lines.  [before]: when the previous burst ended and its last beat. *)
Fixpoint calm (digits beats per_beat : nat) (idle : N) (bound : N) (before : option (N * list N))
  (ops : list transfer) (outs : list (list N)) : Prop :=
  match ops, outs with
  | [], [] => True
  | o :: ops, l :: outs =>
      let first := match before with
                   | Some (e, last) => if e =? tr_time o then last else repeat idle per_beat
                   | None => repeat idle per_beat
                   end in
      (forall i, (i < length l)%nat -> toggling digits (nth i (first ++ l) 0) (nth i l 0) <= bound) /\
      calm digits beats per_beat idle bound (Some (tr_time o + N.of_nat beats, beat_of per_beat l (beats - 1))) ops outs
  | _, _ => False
  end.
(* What the user hands over are entries of the data type. *)
Definition entries_ok (digits : nat) (data : list N) : Prop := Forall (fun v => v < 2 ^ N.of_nat digits) data.
