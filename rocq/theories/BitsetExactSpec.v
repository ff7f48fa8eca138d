(* A bit set of run-time size, with the bits its last block has to spare: the
   yardstick for the exact part of C32. *)
From Coq Require Import NArith List Bool Arith.
From Verif Require Import Base Bits BitsetModel BitsetSpec.
Import ListNotations.

(* Room for n bits in whole blocks. *)
Definition room (bs n : nat) : nat := (Nat.div (n + (bs - 1)) bs * bs)%nat.
(* A list filled up with zeroes. *)
Definition filled (len : nat) (l : list bool) : list bool := l ++ repeat false (len - length l).

(* kept bs d n l: some history of constructors and mutators, each of which
   returned, has led to d; the same history on a size n and a list l of all the
   bits there is room for leads to n and l.  Nothing is required of indices, and
   whole-list operations touch the spare bits as well. *)
Inductive kept (bs : nat) : dynset -> nat -> list bool -> Prop :=
| kept_empty : kept bs dyn_empty 0 []
| kept_new n : kept bs (dyn_new bs n) n (repeat false (room bs n))
| kept_value n v d : dyn_of_value bs n v = Value d -> kept bs d n (filled (room bs n) (value_bits n v))
| kept_push d n l v d' : kept bs d n l -> dyn_push bs d v = Value d' -> kept bs d' (S n) (list_set (filled (room bs (S n)) l) n v)
| kept_set d n l i v d' : kept bs d n l -> dyn_set bs d i v = Value d' -> kept bs d' n (list_set l i v)
| kept_flip d n l i d' : kept bs d n l -> dyn_flip bs d i = Value d' -> kept bs d' n (list_set l i (negb (nth i l false)))
| kept_set_all d n l : kept bs d n l -> kept bs (dyn_set_all bs d) n (map (fun _ => true) l)
| kept_not d n l : kept bs d n l -> kept bs (dyn_not bs d) n (map negb l)
| kept_reset d n l : kept bs d n l -> kept bs (dyn_reset d) n (map (fun _ => false) l)
| kept_clear d n l : kept bs d n l -> kept bs (dyn_clear d) 0 []
| kept_zip g d e n n' l l' d' : kept bs d n l -> kept bs e n' l' -> dyn_zip (word_gate g) d e = Value d' ->
    kept bs d' n (zip (bit_gate g) l l').
