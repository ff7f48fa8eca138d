(* Properties of the bus, the burst storage and the clock: C14, C15, C17, C24. *)
From Coq Require Import NArith Lia List Bool.
From Verif Require Import Base Bits BusModel WaveSpec BitFacts StorageProofs BusProofs BusMore ReenableProofs ClockProofs.
Import ListNotations.
Local Open Scope N_scope.

(* Three loads of two-beat bursts on a three-line bus; the second starts right
   where the first ends, the third after a gap. *)
Definition example_loads : list load_op := [mkLoad 2 [45] 6; mkLoad 3 [19] 6; mkLoad 6 [250; 1] 9].

(* ---- C14 ---- *)

(* The reported statistics are those of the waveform, modulo 2^64. *)
Theorem C14_bus_is_waveform max width rate high ls t :
  (0 < width <= max)%nat -> N.of_nat width < two64 -> 0 < rate ->
  Forall (load_ok width rate) ls -> well_timed width rate 0 ls ->
  last_start rate ls <= t * rate -> t * rate < two64 ->
  bus_query max width rate high ls t =
  Value (wrap_stats (wave_stats width (idle_word width high) (map (drive_of width rate) ls) (t * rate))).
Proof. exact (bus_is_waveform max width rate high ls t). Qed.
Print Assumptions C14_bus_is_waveform.

Example C14_bus_is_waveform_case :
  Forall (load_ok 3 2) example_loads /\ well_timed 3 2 0 example_loads /\ last_start 2 example_loads <= 9 * 2 /\
  bus_query 8 3 2 true example_loads 9 = Value (mkStats 47 7 10 5 5).
Proof.
  split; [repeat constructor; cbn; try lia; unfold two64; lia|]. split; [cbn; lia|]. split; [vm_compute; discriminate|].
  vm_compute. reflexivity.
Qed.

(* A load that starts before the end of the one before it fails the assert. *)
Theorem C14_overlap_rejected max width rate high ls l :
  (0 < width <= max)%nat -> N.of_nat width < two64 -> 0 < rate ->
  Forall (load_ok width rate) ls -> well_timed width rate 0 ls ->
  lo_time l * rate < load_end width rate ls ->
  exists b, bus_after max width rate high ls = Value b /\
    bus_load b (lo_time l) (lo_data l) (lo_bits l) = Fails Assertion.
Proof. exact (bus_rejects_overlap max width rate high ls l). Qed.
Print Assumptions C14_overlap_rejected.

Example C14_overlap_rejected_case : lo_time (mkLoad 7 [3] 6) * 2 < load_end 3 2 example_loads.
Proof. vm_compute. reflexivity. Qed.

(* A disabled bus drops loads and its statistics stand still at the waveform up
   to the time it was disabled. *)
Theorem C14_disabled_bus_stands_still max width rate high ls t :
  (0 < width <= max)%nat -> N.of_nat width < two64 -> 0 < rate ->
  Forall (load_ok width rate) ls -> well_timed width rate 0 ls ->
  last_start rate ls < t * rate -> t * rate < two64 ->
  exists b b', bus_after max width rate high ls = Value b /\ bus_disable b t = Value (b', t) /\
    forall u, t <= u -> u * rate < two64 -> forall data n_bits,
      bus_load b' u data n_bits = Value b' /\
      bus_get_stats b' u =
        Value (wrap_stats (wave_stats width (idle_word width high) (map (drive_of width rate) ls) (t * rate))).
Proof. exact (bus_disabled_freezes max width rate high ls t). Qed.
Print Assumptions C14_disabled_bus_stands_still.

Example C14_disabled_bus_stands_still_case : last_start 2 example_loads < 7 * 2 /\
  (b <- bus_after 8 3 2 false example_loads ;; x <- bus_disable b 7 ;; bus_get_stats (fst x) 20) =
  Value (wrap_stats (wave_stats 3 0 (map (drive_of 3 2) example_loads) 14)).
Proof. split; vm_compute; reflexivity. Qed.

(* A bus that is disabled and enabled again counts beats that never happened:
   it reports more line beats than there are beats since time 0. *)
Theorem C14_reenabled_bus_refuted : exists b b1 b2 s,
  bus_after 8 2 1 true [] = Value b /\ bus_disable b 5 = Value b1 /\ bus_enable (fst b1) 10 = Value b2 /\
  bus_get_stats b2 12 = Value s /\ N.of_nat 2 * (12 * 1) < ones s + zeroes s.
Proof.
  do 4 eexists. split; [vm_compute; reflexivity|]. split; [vm_compute; reflexivity|].
  split; [vm_compute; reflexivity|]. split; [vm_compute; reflexivity|]. vm_compute. reflexivity.
Qed.
Print Assumptions C14_reenabled_bus_refuted.

(* What a bus switched off at t and on again at t2 does report: the waveform up to
   t, and then the idle waveform of all beats from the very first one on; at t2
   itself one beat less.  Nothing can be loaded at t2. *)
Theorem C14_reenabled_exactly max width rate high ls t t2 :
  (0 < width <= max)%nat -> N.of_nat width < two64 -> 0 < rate -> Forall (load_ok width rate) ls -> well_timed width rate 0 ls ->
  last_start rate ls < t * rate -> t < t2 -> t2 * rate < two64 ->
  exists b b' b2, bus_after max width rate high ls = Value b /\ bus_disable b t = Value (b', t) /\ bus_enable b' t2 = Value b2 /\
    (forall data n_bits, bus_load b2 t2 data n_bits = Fails Assertion) /\
    forall u, u * rate < two64 ->
      (u < t2 -> bus_get_stats b2 u = Fails Assertion) /\
      (t2 < u -> bus_get_stats b2 u = Value (wrap_stats (add_exact (wave_stats width (idle_word width high) (map (drive_of width rate) ls) (t * rate)) (wave_stats width (idle_word width high) [] (u * rate))))) /\
      (u = t2 -> bus_get_stats b2 u = Value (wrap_stats (add_exact (wave_stats width (idle_word width high) (map (drive_of width rate) ls) (t * rate)) (wave_stats width (idle_word width high) [] (u * rate - 1))))).
Proof. exact (reenabled max width rate high ls t t2). Qed.
Print Assumptions C14_reenabled_exactly.

Example C14_reenabled_exactly_case :
  Forall (load_ok 3 2) example_loads /\ well_timed 3 2 0 example_loads /\ last_start 2 example_loads < 7 * 2 /\
  wave_stats 3 (idle_word 3 true) (map (drive_of 3 2) example_loads) (7 * 2) = mkStats 37 5 6 3 3 /\ wave_stats 3 (idle_word 3 true) [] (10 * 2) = mkStats 60 0 0 0 0.
Proof.
  split; [repeat constructor; cbn; try lia; unfold two64; lia|]. split; [cbn; lia|]. split; [vm_compute; reflexivity|].
  split; vm_compute; reflexivity.
Qed.

(* A bus constructed disabled and enabled at 4 reports the beats from 0 on. *)
Theorem C14_late_enable_refuted : exists b b1 s,
  bus_new 8 2 1 IdleH false = Value b /\ bus_enable b 4 = Value b1 /\ bus_get_stats b1 6 = Value s /\
  ones s = N.of_nat 2 * 6 /\ ones s <> N.of_nat 2 * (6 - 4).
Proof.
  do 3 eexists. split; [vm_compute; reflexivity|]. split; [vm_compute; reflexivity|].
  split; [vm_compute; reflexivity|]. split; vm_compute; [reflexivity|discriminate].
Qed.
Print Assumptions C14_late_enable_refuted.

(* A load of fewer bits than lines is accepted but every later query before
   another load fails the assert in Bus::at. *)
Theorem C14_short_load_refuted : exists b,
  bus_after 8 2 1 true [mkLoad 3 [1] 1] = Value b /\ bus_get_stats b 6 = Fails Assertion.
Proof. eexists. split; vm_compute; reflexivity. Qed.
Print Assumptions C14_short_load_refuted.

(* ---- C15 ---- *)

(* Queries at t and, after further loads, at u: the later one is componentwise at
   least the earlier one and the lines counted in between are all lines of all
   beats in between. *)
Theorem C15_bus_additive max width rate high ls ls' t u :
  (0 < width <= max)%nat -> N.of_nat width < two64 -> 0 < rate ->
  Forall (load_ok width rate) (ls ++ ls') -> well_timed width rate 0 (ls ++ ls') ->
  last_start rate ls <= t * rate -> Forall (fun l => t <= lo_time l) ls' ->
  t <= u -> last_start rate (ls ++ ls') <= u * rate -> N.of_nat width * (u * rate) < two64 ->
  exists s s', bus_query max width rate high ls t = Value s /\ bus_query max width rate high (ls ++ ls') u = Value s' /\
    stats_le s s' /\ (ones s' - ones s) + (zeroes s' - zeroes s) = N.of_nat width * ((u - t) * rate).
Proof. exact (bus_additive max width rate high ls ls' t u). Qed.
Print Assumptions C15_bus_additive.

Example C15_bus_additive_case :
  last_start 2 (firstn 2 example_loads) <= 5 * 2 /\ Forall (fun l => 5 <= lo_time l) (skipn 2 example_loads) /\
  last_start 2 (firstn 2 example_loads ++ skipn 2 example_loads) <= 9 * 2 /\ N.of_nat 3 * (9 * 2) < two64.
Proof. split; [vm_compute; discriminate|]. split; [repeat constructor; cbn; lia|]. split; vm_compute; [discriminate|reflexivity]. Qed.

(* What a waveform obeys: each line is high or low in each beat, changes are
   falls plus rises, and falls and rises balance with the levels. *)
Theorem C15_wave_balance width idle ds n :
  let s := wave_stats width idle ds n in
  ones s + zeroes s = N.of_nat width * n /\ changes s = o2z s + z2o s /\
  lines width (level (wire_before idle ds n)) + o2z s = lines width (level idle) + z2o s.
Proof. exact (wave_conserves width idle ds n). Qed.
Print Assumptions C15_wave_balance.

(* ---- C17 ---- *)

(* A history of starts and stops is accepted exactly when it alternates. *)
Theorem C17_clock_accepts ops c :
  (exists c', clock_run ops c = Value c') <-> alternating (ck_start c) ops.
Proof. exact (clock_accepts ops c). Qed.
Print Assumptions C17_clock_accepts.

Example C17_clock_accepts_case : alternating (ck_start (clock_new 2 false)) [Stop 4; Start 9; Stop 10; Start 10].
Proof. cbn. lia. Qed.

(* For an even data rate every half period of a running cycle is counted once. *)
Theorem C17_clock_counts half stopped ops t c :
  in_order 0 t ops -> t * (2 * half) < two64 -> t < two64 ->
  clock_run ops (clock_new (2 * half) stopped) = Value c ->
  clock_get c t = wrap_stats (periods half (running_cycles (negb stopped) ops t)).
Proof. exact (clock_counts half stopped ops t c). Qed.
Print Assumptions C17_clock_counts.

Example C17_clock_counts_case :
  in_order 0 20 [Stop 4; Start 9; Stop 10; Start 10] /\
  running_cycles true [Stop 4; Start 9; Stop 10; Start 10] 20 = 15 /\
  exists c, clock_run [Stop 4; Start 9; Stop 10; Start 10] (clock_new (2 * 1) false) = Value c /\
    clock_get c 20 = mkStats 15 15 30 15 15.
Proof. split; [cbn; lia|]. split; [reflexivity|]. eexists. split; vm_compute; reflexivity. Qed.

(* With an odd data rate half periods are lost at every stop. *)
Theorem C17_odd_rate_refuted : exists c, clock_run [Stop 1; Start 1; Stop 2; Start 2] (clock_new 1 false) = Value c /\
  running_cycles true [Stop 1; Start 1; Stop 2; Start 2] 2 = 2 /\ ones (clock_get c 2) + zeroes (clock_get c 2) <> 1 * 2.
Proof. eexists. split; [vm_compute; reflexivity|]. split; [reflexivity|vm_compute; discriminate]. Qed.
Print Assumptions C17_odd_rate_refuted.

(* ---- C24 ---- *)

(* Line j of stored burst m is payload bit m * width + j, inverted on request. *)
Theorem C24_storage_keeps_bits max c t width data n_bits invert :
  (0 < width <= max)%nat -> (n_bits <= 8 * length data)%nat -> clean width c ->
  exists c', insert_data max c t width data n_bits invert = Value c' /\ bc_load c' = t /\
    bc_count c' = Nat.div n_bits width /\
    forall m j, (m < Nat.div n_bits width)%nat -> (j < width)%nat ->
      exists w, storage_get c' (Nat.div n_bits width - 1 - m) = Value w /\ bounded width w /\
        level w j = (if invert then negb (payload_bit data (m * width + j)) else payload_bit data (m * width + j)).
Proof. exact (storage_keeps_bits max c t width data n_bits invert). Qed.
Print Assumptions C24_storage_keeps_bits.

Example C24_storage_keeps_bits_case : clean 3 (storage_new 3) /\
  exists c, insert_data 8 (storage_new 3) 4 3 [250; 1] 9 false = Value c /\ bc_bursts c = [2; 7; 7].
Proof.
  split; [intros m; unfold storage_read; cbn; destruct m; apply bounded_0|].
  eexists. split; vm_compute; reflexivity.
Qed.
