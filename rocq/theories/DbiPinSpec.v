(* What the DBI pins do, told from the data alone: the yardstick for C38 at the
   level of an interface. *)
From Coq Require Import NArith List Bool.
From Verif Require Import Base Bits WaveSpec PinModel PinSpec DbiModel DbiSpec DbiPinModel.
Import ListNotations.
Local Open Scope N_scope.

(* An entry is inverted when more than half of its lines are away from idle. *)
Definition inverts (digits : nat) (high : bool) (v : N) : bool := N.of_nat digits <? 2 * consuming digits high v.

(* The bursts of one direction. *)
Definition of_side (read : bool) (ops : list transfer) : list transfer := filter (fun o => Bool.eqb (tr_read o) read) ops.
(* What pin p transmits: in beat b the inversion of the p-th entry of the beat, as
   a level away from the idle level. *)
Definition pin_bursts (digits : nat) (high : bool) (rate : N) (pins beats p : nat) (ops : list transfer) : bursts :=
  map (fun o => (tr_time o * rate,
                 map (fun b => xorb high (inverts digits high (nth (b * pins + p) (tr_data o) 0))) (seq 0 beats))) ops.
(* Every burst that is not followed at once by the next of its direction ends
   with a beat in which nothing is inverted. *)
Definition settled (digits : nat) (high : bool) (rate : N) (pins beats : nat) (ops : list transfer) : Prop :=
  forall l o o' l', ops = l ++ o :: o' :: l' ->
    tr_time o' * rate = tr_time o * rate + N.of_nat beats \/
    forall p, (p < pins)%nat -> inverts digits high (nth ((beats - 1) * pins + p) (tr_data o) 0) = false.

(* All pins together. *)
Fixpoint sum_pins (n : nat) (f : nat -> bus_stats) : bus_stats :=
  match n with O => mkStats 0 0 0 0 0 | S n => add_exact (sum_pins n f) (f n) end.

(* A series of bursts through an interface. *)
Fixpoint dbi_if_run (bits : nat) (ops : list transfer) (i : dbi_pins_if) : result dbi_pins_if :=
  match ops with
  | [] => Value i
  | o :: r => x <- dbi_if_data i (tr_time o) bits (Some (tr_data o)) (tr_read o) ;; dbi_if_run bits r (fst x)
  end.
