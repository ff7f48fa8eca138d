(* Vocabulary shared by the models of the interface side: results of functions
   that can fail, bit sets, and transition statistics. *)
From Coq Require Import NArith List Bool.
From Verif Require Import Base.
Import ListNotations.
Local Open Scope N_scope.

(* How a C++ function can fail to return normally: an exception, a failed assert
   (debug build), or undefined behaviour.  On this side of the model the state
   of an object after a failure is not tracked. *)
(* E.g. util/bus.h 113 (assert), util/dynamic_bitset.h 89 (exception). *)
Inductive failure := Exception | Assertion | UB.
(* A value or a failure: e.g. util/bus.h 182-200. *)
Inductive result (A : Type) : Type :=
| Value (a : A)
| Fails (f : failure).
Arguments Value {A} a.
Arguments Fails {A} f.

(* Sequencing of C++ statements. *)
(* E.g. util/bus.h 92-109. *)
Definition bind {A B} (m : result A) (k : A -> result B) : result B :=
  match m with Value a => k a | Fails f => Fails f end.
(* Notation for bind: e.g. util/bus.h 92-109. *)
Notation "x <- m ;; k" := (bind m (fun x => k)) (at level 61, m at next level, right associativity).
(* `assert(b)` before the statement k. *)
(* E.g. util/bus.h 113, 152, 155; util/clock.h 52-53, 61. *)
Definition check {A} (b : bool) (k : result A) : result A := if b then k else Fails Assertion.

(* A loop running the body f over the index list, with loop state a. *)
(* E.g. util/bus.h 97-99. *)
Fixpoint loop {A I} (f : I -> A -> result A) (l : list I) (a : A) : result A :=
  match l with
  | [] => Value a
  | i :: r => a' <- f i a ;; loop f r a'
  end.

(* std::bitset<n> is a number below 2^n; bit i is N.testbit _ i.
   std::bitset::count: popcount of a bit set (util/binary_ops.h 41-51). *)
Fixpoint popcount_pos (p : positive) : N :=
  match p with xH => 1 | xO q => popcount_pos q | xI q => 1 + popcount_pos q end.
(* With popcount_pos: std::bitset<n> is a number below 2^n; bit i is N.testbit _
   i. std::bitset::count: popcount of a bit set (util/binary_ops.h 41-51). *)
Definition popcount (n : N) : N := match n with N0 => 0 | Npos p => popcount_pos p end.

(* std::bitset<max>::set(i, v): throws std::out_of_range when i >= max. *)
(* util/burst_storage.h 404-417. *)
Definition set_bit (max : nat) (n : N) (i : nat) (v : bool) : result N :=
  if Nat.ltb i max
  then Value (if v then N.setbit n (N.of_nat i) else N.clearbit n (N.of_nat i))
  else Fails Exception.

(* BinaryOps::zero_to_ones, one_to_zeroes, bit_changes: util/binary_ops.h 52-68.
   ~p & q is N.ldiff q p. *)
Definition zero_to_ones (p q : N) : N := popcount (N.ldiff q p).
(* With zero_to_ones: BinaryOps::zero_to_ones, one_to_zeroes, bit_changes:
   util/binary_ops.h 52-68. ~p & q is N.ldiff q p. *)
Definition one_to_zeroes (p q : N) : N := popcount (N.ldiff p q).
(* With zero_to_ones: BinaryOps::zero_to_ones, one_to_zeroes, bit_changes:
   util/binary_ops.h 52-68. ~p & q is N.ldiff q p. *)
Definition bit_changes (p q : N) : N := popcount (N.lxor p q).

(* bus_stats_t: util/bus_types.h 19-24. *)
Record bus_stats := mkStats {
  ones : N; zeroes : N; changes : N; o2z : N; z2o : N
}.
(* Default member initialisers: util/bus_types.h 20-24. *)
Definition stats0 : bus_stats := mkStats 0 0 0 0 0.
(* operator+=, operator+: util/bus_types.h 26-33, 44-46. *)
Definition stats_add (a b : bus_stats) : bus_stats :=
  mkStats (u64_add (ones a) (ones b)) (u64_add (zeroes a) (zeroes b)) (u64_add (changes a) (changes b))
          (u64_add (o2z a) (o2z b)) (u64_add (z2o a) (z2o b)).
(* operator*=, operator*: util/bus_types.h 35-42, 48-54. *)
Definition stats_mul (n : N) (a : bus_stats) : bus_stats :=
  mkStats (u64_mul (ones a) n) (u64_mul (zeroes a) n) (u64_mul (changes a) n)
          (u64_mul (o2z a) n) (u64_mul (z2o a) n).

(* PendingStats<bus_stats_t>: util/pending_stats.h 74-76 (members). *)
Record pending := mkPending { pd_time : N; pd_stats : bus_stats; pd_set : bool }.
(* PendingStats(): util/pending_stats.h 18-22. *)
Definition pending0 : pending := mkPending 0 stats0 false.
(* setPendingStats: util/pending_stats.h 32-37. *)
Definition set_pending (t : N) (s : bus_stats) : pending := mkPending t s true.
(* clear: util/pending_stats.h 44-47. *)
Definition clear_pending (p : pending) : pending := mkPending (pd_time p) (pd_stats p) false.
