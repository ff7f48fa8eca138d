(* Bit sets of run-time size.  Models util/dynamic_bitset.h and
   util/sub_bitset.h under src/DRAMPower/DRAMPower.  Sizes and indices are nat
   (a size beyond 2^64 does not fit into memory); a block is a number below
   2^blocksize; the block size is a positive template argument. *)
From Coq Require Import NArith List Bool.
From Verif Require Import Base Bits.
Import ListNotations.
Local Open Scope N_scope.

(* ---- dynamic_bitset<blocksize> ---- *)

(* Members: util/dynamic_bitset.h 25-27. *)
Record dynset := mkDyn { dy_bits : nat; dy_mask : N; dy_blocks : list N }.
(* Number of blocks: util/dynamic_bitset.h 31, 37. *)
Definition block_count (bs n : nat) : nat := if Nat.eqb (Nat.modulo n bs) 0 then Nat.div n bs else (Nat.div n bs + 1)%nat.
(* makeLastElementMask: util/dynamic_bitset.h 57-62; the loop sets the lowest
   bits. *)
Definition last_mask (bs n : nat) : N := N.ones (N.of_nat (Nat.modulo n bs)).

(* dynamic_bitset(): util/dynamic_bitset.h 49, members default initialised. *)
Definition dyn_empty : dynset := mkDyn 0 0 [].
(* dynamic_bitset(num_bits): util/dynamic_bitset.h 29-34. *)
Definition dyn_new (bs n : nat) : dynset := mkDyn n (last_mask bs n) (repeat 0 (block_count bs n)).

(* buffer.at(k): throws std::out_of_range. *)
(* util/dynamic_bitset.h 89, 107, 117-118, 127. *)
Definition block_at (d : dynset) (k : nat) : result N :=
  match nth_error (dy_blocks d) k with Some b => Value b | None => Fails Exception end.
(* Replacement of a block. *)
(* util/dynamic_bitset.h 41, 89, 107. *)
Definition with_block (d : dynset) (k : nat) (b : N) : dynset := mkDyn (dy_bits d) (dy_mask d) (upd k (fun _ => b) (dy_blocks d)).
(* The same operation on each block. *)
(* util/dynamic_bitset.h 92-104, 160-192. *)
Definition each_block (d : dynset) (f : N -> N) : dynset := mkDyn (dy_bits d) (dy_mask d) (map f (dy_blocks d)).

(* set(n, value): util/dynamic_bitset.h 88-90. *)
Definition dyn_set (bs : nat) (d : dynset) (n : nat) (v : bool) : result dynset :=
  b <- block_at d (Nat.div n bs) ;;
  b <- set_bit bs b (Nat.modulo n bs) v ;;
  Value (with_block d (Nat.div n bs) b).
(* dynamic_bitset(num_bits, value): util/dynamic_bitset.h 35-48.  The
   accumulator is a uint64_t that is shifted left by one in each round, so it is
   2^bit_index for the first 64 bits and zero after that. *)
Definition dyn_of_value (bs n : nat) (value : N) : result dynset :=
  d <- loop (fun i d => dyn_set bs d i (negb (N.land value (N.shiftl 1 (N.of_nat i) mod two64) =? 0)))
            (seq 0 n) (mkDyn n 0 (repeat 0 (block_count bs n))) ;;
  Value (mkDyn n (last_mask bs n) (dy_blocks d)).

(* size: util/dynamic_bitset.h 63. *)
Definition dyn_size (d : dynset) : nat := dy_bits d.
(* count: util/dynamic_bitset.h 64-77; i_blocks is blocksize * (index + 1). *)
Definition dyn_count (bs : nat) (d : dynset) : N :=
  fst (fold_left (fun (s : N * nat) b =>
        (fst s + (if Nat.ltb (dy_bits d) (snd s) then popcount (N.land b (dy_mask d)) else popcount b), (snd s + bs)%nat))
      (dy_blocks d) (0, bs)).

(* push_back: util/dynamic_bitset.h 79-87; buffer.back() on an empty vector is
   undefined. *)
Definition dyn_push (bs : nat) (d : dynset) (v : bool) : result dynset :=
  let blocks := if Nat.eqb (Nat.modulo (dy_bits d) bs) 0 then dy_blocks d ++ [0] else dy_blocks d in
  match nth_error blocks (length blocks - 1) with
  | None => Fails UB
  | Some b =>
      b <- set_bit bs b (Nat.modulo (dy_bits d) bs) v ;;
      Value (mkDyn (S (dy_bits d)) (last_mask bs (S (dy_bits d))) (upd (length blocks - 1) (fun _ => b) blocks))
  end.
(* set(): util/dynamic_bitset.h 91-95. *)
Definition dyn_set_all (bs : nat) (d : dynset) : dynset := each_block d (fun _ => N.ones (N.of_nat bs)).
(* reset(): util/dynamic_bitset.h 96-100. *)
Definition dyn_reset (d : dynset) : dynset := each_block d (fun _ => 0).
(* flip() and operator~: util/dynamic_bitset.h 101-105, 159-167. *)
Definition dyn_not (bs : nat) (d : dynset) : dynset := each_block d (fun b => N.lxor b (N.ones (N.of_nat bs))).
(* flip(n): util/dynamic_bitset.h 106-108. *)
Definition dyn_flip (bs : nat) (d : dynset) (n : nat) : result dynset :=
  b <- block_at d (Nat.div n bs) ;;
  Value (with_block d (Nat.div n bs) (N.lxor b (N.shiftl 1 (N.of_nat (Nat.modulo n bs))))).
(* clear: util/dynamic_bitset.h 109-112; the mask stays. *)
Definition dyn_clear (d : dynset) : dynset := mkDyn 0 (dy_mask d) [].
(* operator[]: util/dynamic_bitset.h 117-118. *)
Definition dyn_get (bs : nat) (d : dynset) (n : nat) : result bool :=
  b <- block_at d (Nat.div n bs) ;; Value (N.testbit b (N.of_nat (Nat.modulo n bs))).

(* operator== for equal block sizes: util/dynamic_bitset.h 120-133. *)
Definition dyn_eq (d e : dynset) : result bool :=
  if Nat.eqb (dyn_size d) (dyn_size e)
  then loop (fun k (r : bool) => if r then x <- block_at d k ;; y <- block_at e k ;; Value (x =? y) else Value false)
            (seq 0 (length (dy_blocks d))) true
  else Value false.
(* operator== for different block sizes: util/dynamic_bitset.h 134-147. *)
Definition dyn_eq_other (bs bs' : nat) (d e : dynset) : result bool :=
  if Nat.eqb (dyn_size d) (dyn_size e)
  then loop (fun i (r : bool) => if r then x <- dyn_get bs d i ;; y <- dyn_get bs' e i ;; Value (Bool.eqb x y) else Value false)
            (seq 0 (dyn_size d)) true
  else Value false.
(* operator==(unsigned long): util/dynamic_bitset.h 152-154. *)
Definition dyn_eq_value (bs : nat) (d : dynset) (value : N) : result bool :=
  e <- dyn_of_value bs (dyn_size d) value ;; dyn_eq d e.

(* operator^=, &=, |=: util/dynamic_bitset.h 168-194. *)
Definition dyn_zip (f : N -> N -> N) (d e : dynset) : result dynset :=
  check (Nat.eqb (dyn_size d) (dyn_size e))
    (loop (fun k d => x <- block_at d k ;; y <- block_at e k ;; Value (with_block d k (f x y))) (seq 0 (length (dy_blocks d))) d).

(* ---- sub_bitset<max> ---- *)

(* Members: util/sub_bitset.h 21-23. *)
Record subset := mkSub { sb_width : nat; sb_buffer : N; sb_mask : N }.
(* makeMask: util/sub_bitset.h 58-63. *)
Definition sub_mask (width : nat) : N := N.ones (N.of_nat width).
(* sub_bitset(width): util/sub_bitset.h 25-34. *)
Definition sub_new (max width : nat) : result subset :=
  check (Nat.leb width max) (Value (mkSub width 0 (sub_mask width))).
(* sub_bitset(width, value): util/sub_bitset.h 35-49. *)
Definition sub_of_value (max width : nat) (value : N) : result subset :=
  check (Nat.leb width max)
    (b <- loop (fun i b => set_bit max b i (negb (N.land value (N.shiftl 1 (N.of_nat i) mod two64) =? 0))) (seq 0 width) 0 ;;
     Value (mkSub width b (sub_mask width))).
(* Replacement of the buffer. *)
(* util/sub_bitset.h 22, 74-92. *)
Definition with_buffer (s : subset) (b : N) : subset := mkSub (sb_width s) b (sb_mask s).
(* count: util/sub_bitset.h 65-67. *)
Definition sub_count (s : subset) : N := popcount (sb_buffer s).
(* set(n, value): util/sub_bitset.h 69-75. *)
Definition sub_set (max : nat) (s : subset) (n : nat) (v : bool) : result subset :=
  check (Nat.ltb n (sb_width s)) (b <- set_bit max (sb_buffer s) n v ;; Value (with_buffer s b)).
(* set(): util/sub_bitset.h 76-79. *)
Definition sub_set_all (max : nat) (s : subset) : subset := with_buffer s (N.land (N.ones (N.of_nat max)) (sb_mask s)).
(* reset(): util/sub_bitset.h 80-82. *)
Definition sub_reset (s : subset) : subset := with_buffer s 0.
(* flip() and operator~: util/sub_bitset.h 83-86, 128-133. *)
Definition sub_not (max : nat) (s : subset) : subset :=
  with_buffer s (N.land (N.lxor (sb_buffer s) (N.ones (N.of_nat max))) (sb_mask s)).
(* flip(n): util/sub_bitset.h 87-93. *)
Definition sub_flip (s : subset) (n : nat) : result subset :=
  check (Nat.ltb n (sb_width s)) (Value (with_buffer s (N.lxor (sb_buffer s) (N.shiftl 1 (N.of_nat n))))).
(* operator[]: util/sub_bitset.h 95-108. *)
Definition sub_get (s : subset) (n : nat) : result bool :=
  check (Nat.ltb n (sb_width s)) (Value (N.testbit (sb_buffer s) (N.of_nat n))).
(* operator==: util/sub_bitset.h 110-116. *)
Definition sub_eq (s t : subset) : bool := Nat.eqb (sb_width s) (sb_width t) && (sb_buffer s =? sb_buffer t).
(* operator==(unsigned long): util/sub_bitset.h 121-123. *)
Definition sub_eq_value (max : nat) (s : subset) (value : N) : result bool :=
  t <- sub_of_value max (sb_width s) value ;; Value (sub_eq s t).
(* operator^= and |=: util/sub_bitset.h 134-140, 147-153. *)
Definition sub_zip (f : N -> N -> N) (s t : subset) : result subset :=
  check (Nat.eqb (sb_width s) (sb_width t)) (Value (with_buffer s (N.land (f (sb_buffer s) (sb_buffer t)) (sb_mask s)))).
(* operator&=: util/sub_bitset.h 141-146. *)
Definition sub_and (s t : subset) : result subset :=
  check (Nat.eqb (sb_width s) (sb_width t)) (Value (with_buffer s (N.land (sb_buffer s) (sb_buffer t)))).
