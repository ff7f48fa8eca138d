(* Shared vocabulary of the model: 64-bit unsigned arithmetic, outcomes of C++
   functions, and in-place update of vectors. *)
From Coq Require Import NArith List Bool.
Import ListNotations.
Local Open Scope N_scope.

(* Size of uint64_t / std::size_t (LP64).  timestamp_t is uint64_t:
   src/DRAMPower/DRAMPower/Types.h, used throughout. *)
Definition two64 : N := 18446744073709551616.

(* C++ unsigned `a + b` (wraps). *)
(* On timestamp_t: src/DRAMPower/DRAMPower/Types.h 10. *)
Definition u64_add (a b : N) : N := (a + b) mod two64.

(* C++ unsigned `a - b` (wraps). *)
(* On timestamp_t: src/DRAMPower/DRAMPower/Types.h 10. *)
Definition u64_sub (a b : N) : N := (a + two64 - b mod two64) mod two64.

(* C++ unsigned `a * b` (wraps). *)
(* On timestamp_t: src/DRAMPower/DRAMPower/Types.h 10. *)
Definition u64_mul (a b : N) : N := (a * b) mod two64.

(* C++ `++a` on uint64_t (wraps). *)
Definition u64_inc (a : N) : N := u64_add a 1.

(* What a call of a C++ member function can do.
   [Ok s]      returns normally leaving the object in state s;
   [Throws s]  throws a C++ exception leaving the object in state s;
   [Asserts]   an `assert` fails (debug build: abort);
   [Undefined] undefined behaviour (out-of-bounds operator[], division by 0). *)
Inductive outcome (A : Type) : Type :=
| Ok (a : A)
| Throws (a : A)
| Asserts
| Undefined.
Arguments Ok {A} a.
Arguments Throws {A} a.
Arguments Asserts {A}.
Arguments Undefined {A}.

(* Whether a call returned normally; no function of the source. *)
Definition is_ok {A} (o : outcome A) : bool :=
  match o with Ok _ => true | _ => false end.


(* `v[i] = f(v[i])`; leaves the vector alone when i is out of range (callers
   check the range first and return [Asserts]/[Undefined] otherwise). *)
(* E.g. src/DRAMPower/DRAMPower/standards/ddr4/DDR4Core.cpp 70-78. *)
Fixpoint upd {A} (i : nat) (f : A -> A) (l : list A) : list A :=
  match l, i with
  | [], _ => []
  | x :: r, O => f x :: r
  | x :: r, S k => x :: upd k f r
  end.
