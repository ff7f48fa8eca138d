(* Lists of bits: the yardstick for C32. *)
From Coq Require Import NArith List Bool.
From Verif Require Import Base Bits BitsetModel.
Import ListNotations.
Local Open Scope N_scope.

(* The list a dynamic_bitset stands for: bit i is bit i mod blocksize of block
   i / blocksize. *)
Definition contents (bs : nat) (d : dynset) : list bool :=
  map (fun i => N.testbit (nth (Nat.div i bs) (dy_blocks d) 0) (N.of_nat (Nat.modulo i bs))) (seq 0 (dy_bits d)).
(* The list a sub_bitset stands for. *)
Definition sub_contents (s : subset) : list bool := map (fun i => N.testbit (sb_buffer s) (N.of_nat i)) (seq 0 (sb_width s)).

(* Operations on lists. *)
Definition list_set (l : list bool) (n : nat) (v : bool) : list bool := firstn n l ++ v :: skipn (S n) l.
Fixpoint zip (f : bool -> bool -> bool) (l l' : list bool) : list bool :=
  match l, l' with a :: l, b :: l' => f a b :: zip f l l' | _, _ => [] end.
Definition trues (l : list bool) : N := N.of_nat (length (filter (fun b => b) l)).
(* The lowest bits of a 64-bit number, zeroes after that. *)
Definition value_bits (n : nat) (v : N) : list bool := map (fun i => Nat.ltb i 64 && N.testbit v (N.of_nat i)) (seq 0 n).

(* The compound assignments. *)
Inductive gate := GXor | GAnd | GOr.
Definition bit_gate (g : gate) : bool -> bool -> bool := match g with GXor => xorb | GAnd => andb | GOr => orb end.
Definition word_gate (g : gate) : N -> N -> N := match g with GXor => N.lxor | GAnd => N.land | GOr => N.lor end.
Definition sub_gate (g : gate) (s t : subset) : result subset :=
  match g with GAnd => sub_and s t | GXor | GOr => sub_zip (word_gate g) s t end.

(* made bs tidy d l: some history of constructors and mutators has led to d, and
   the same history on lists leads to l.  tidy says that since the last reset no
   operation took part that writes whole blocks with ones (set(), flip(), ~). *)
Inductive made (bs : nat) : bool -> dynset -> list bool -> Prop :=
| made_empty : made bs true dyn_empty []
| made_new n : made bs true (dyn_new bs n) (repeat false n)
| made_value n v d : dyn_of_value bs n v = Value d -> made bs true d (value_bits n v)
| made_push tidy d l v d' : made bs tidy d l -> dyn_push bs d v = Value d' -> made bs tidy d' (l ++ [v])
| made_set tidy d l n v d' : made bs tidy d l -> (n < length l)%nat -> dyn_set bs d n v = Value d' -> made bs tidy d' (list_set l n v)
| made_flip tidy d l n d' : made bs tidy d l -> (n < length l)%nat -> dyn_flip bs d n = Value d' -> made bs tidy d' (list_set l n (negb (nth n l false)))
| made_set_all tidy d l : made bs tidy d l -> made bs false (dyn_set_all bs d) (map (fun _ => true) l)
| made_not tidy d l : made bs tidy d l -> made bs false (dyn_not bs d) (map negb l)
| made_reset tidy d l : made bs tidy d l -> made bs true (dyn_reset d) (map (fun _ => false) l)
| made_clear tidy d l : made bs tidy d l -> made bs true (dyn_clear d) []
| made_zip tidy tidy' g d e l l' d' : made bs tidy d l -> made bs tidy' e l' -> length l = length l' ->
    dyn_zip (word_gate g) d e = Value d' -> made bs (tidy && tidy') d' (zip (bit_gate g) l l').

(* The same for sub_bitset. *)
Inductive sub_made (max : nat) : subset -> list bool -> Prop :=
| sm_new width s : sub_new max width = Value s -> sub_made max s (repeat false width)
| sm_value width v s : sub_of_value max width v = Value s -> sub_made max s (value_bits width v)
| sm_set s l n v s' : sub_made max s l -> sub_set max s n v = Value s' -> sub_made max s' (list_set l n v)
| sm_flip s l n s' : sub_made max s l -> sub_flip s n = Value s' -> sub_made max s' (list_set l n (negb (nth n l false)))
| sm_set_all s l : sub_made max s l -> sub_made max (sub_set_all max s) (map (fun _ => true) l)
| sm_not s l : sub_made max s l -> sub_made max (sub_not max s) (map negb l)
| sm_reset s l : sub_made max s l -> sub_made max (sub_reset s) (map (fun _ => false) l)
| sm_zip g s t l l' s' : sub_made max s l -> sub_made max t l' -> sub_gate g s t = Value s' -> sub_made max s' (zip (bit_gate g) l l').
