(* C23: LPDDR6 burst formatting. *)
From Coq Require Import NArith List Bool Arith.
From Verif Require Import Base Bits WaveSpec BitFacts FormatModel FormatSpec FormatProofs.
Import ListNotations.

Definition no_flags (inv : option (list bool)) : list bool := match inv with Some l => l | None => [] end.
Definition half_meta (meta : N * N) (h : nat) : N := if Nat.eqb h 0 then fst meta else snd meta.
(* 64 bytes of payload. *)
Definition payload64 : list N := map N.of_nat (seq 7 64).

(* On the data bus, beat t of half h shows on pin q (line 11 - q) exactly what
   the frame says.  A shift past 31 may give any value (wild). *)
Theorem C23_formatted_burst_is_the_frame : forall wild meta old data inv n, n = 1 \/ n = 2 -> 256 * n <= 8 * length data -> (n = 2 -> wild <> None) ->
  exists r, format_data wild meta old (Some data) (256 * n) inv = Value (Some r, n * 288) /\
  forall h t q, position n (h, t, q) ->
    level (nth (24 * h + t) (played 12 r (n * 288)) 0%N) (11 - q) = source_value data (half_meta meta) (no_flags inv) (shows h t q).
Proof. exact format_frame. Qed.
Print Assumptions C23_formatted_burst_is_the_frame.
Example C23_formatted_burst_is_the_frame_case :
  256 * 2 <= 8 * length payload64 /\ position 2 (1, 21, 10) /\ shows 1 21 10 = Flag 25 /\ shows 1 9 4 = Meta 1 1 /\ shows 0 8 6 = Data 112 /\
  match format_data (Some (fun _ => true)) (3, 2)%N [] (Some payload64) 512 (Some (repeat false 25 ++ [true])) with
  | Value (Some r, k) => k = 576 /\ nth (24 + 21) (played 12 r 576) 0%N = 2058%N /\ nth (24 + 9) (played 12 r 576) 0%N = 3484%N
  | _ => False
  end.
Proof. split; [vm_compute; repeat constructor|]. split; [cbn; auto with arith|]. vm_compute. repeat split; reflexivity. Qed.

(* Every data, metadata and flag bit of the burst is shown at exactly one
   position, and every position shows one of them. *)
Theorem C23_every_bit_has_one_position : forall n s, source_of n s -> exists p, position n p /\ (let '(h, t, q) := p in shows h t q = s) /\
  forall p', position n p' -> (let '(h, t, q) := p' in shows h t q = s) -> p' = p.
Proof. exact every_source_once. Qed.
Print Assumptions C23_every_bit_has_one_position.
Theorem C23_every_position_shows_a_bit : forall n h t q, position n (h, t, q) -> source_of n (shows h t q).
Proof. exact every_position_shows. Qed.
Print Assumptions C23_every_position_shows_a_bit.
Example C23_every_bit_has_one_position_case : source_of 2 (Data 300) /\ shows 1 3 10 = Data 299 /\ shows 1 0 11 = Data 300.
Proof. vm_compute. repeat split; repeat constructor. Qed.

(* Bursts that agree come from the same data, metadata and flags. *)
Theorem C23_formatting_loses_nothing : forall wild wild' meta meta' old old' data data' inv inv' n r r',
  n = 1 \/ n = 2 -> (n = 2 -> wild <> None) -> (n = 2 -> wild' <> None) -> 256 * n <= 8 * length data -> 256 * n <= 8 * length data' ->
  format_data wild meta old (Some data) (256 * n) inv = Value (Some r, n * 288) ->
  format_data wild' meta' old' (Some data') (256 * n) inv' = Value (Some r', n * 288) ->
  (forall k, k < n * 288 -> payload_bit r k = payload_bit r' k) ->
  forall s, source_of n s -> source_value data (half_meta meta) (no_flags inv) s = source_value data' (half_meta meta') (no_flags inv') s.
Proof. exact format_injective. Qed.
Print Assumptions C23_formatting_loses_nothing.
Example C23_formatting_loses_nothing_case :
  exists r, format_data None (3, 2)%N [] (Some payload64) 256 (Some [true]) = Value (Some r, 288) /\
  format_data None (3, 9)%N (repeat 1%N 50) (Some payload64) 256 (Some [true; false]) = Value (Some (r ++ repeat 1%N 14), 288) /\
  (forall k, k < 288 -> payload_bit r k = payload_bit (r ++ repeat 1%N 14) k).
Proof.
  eexists. split; [vm_compute; reflexivity|]. split; [vm_compute; reflexivity|].
  intros k Hk. symmetry. apply payload_app. exact Hk.
Qed.

(* Read strictly, every 512-bit burst with data is undefined behaviour: the
   inversion flags are a 32-bit number, shifted by up to 47 in the second half. *)
Theorem C23_second_half_defined_refuted : forall meta old data inv, 512 <= 8 * length data -> format_data None meta old (Some data) 512 inv = Fails UB.
Proof. exact format_undefined. Qed.
Print Assumptions C23_second_half_defined_refuted.
Example C23_second_half_defined_refuted_case : 512 <= 8 * length payload64 /\ format_data None (0, 0)%N [] (Some payload64) 512 None = Fails UB.
Proof. split; [vm_compute; repeat constructor|vm_compute; reflexivity]. Qed.
