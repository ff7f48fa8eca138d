(* Properties of data bus inversion and its pins: C18, C19, C20, C38. *)
From Coq Require Import NArith Lia List Bool Arith.
From Verif Require Import Base Bits WaveSpec PinModel PinSpec PinProofs DbiModel DbiSpec DbiProofs DbiBounds
  DbiPinModel DbiPinSpec DbiPinProofs.
Import ListNotations.
Local Open Scope N_scope.

(* A 16 line bus with two DBI pins, idle high, as DDR4 builds it, and its low
   idle counterpart for LPDDR4; capacities as libstdc++ chooses them. *)
Definition words_of_64 (n : nat) : nat := (Nat.div (n + 63) 64 * 64)%nat.
Definition ddr4_dbi : dbi_config := mkDbiConfig 8 1 PinH Static (Some 16%nat) 8 true words_of_64.
Definition lpddr4_dbi : dbi_config := mkDbiConfig 8 1 PinL Static (Some 16%nat) 16 true words_of_64.
Definition lpddr6_dbi : dbi_config := mkDbiConfig 8 2 PinL Static None 24 false words_of_64.
Definition dynamic_dbi : dbi_config := mkDbiConfig 8 1 PinL (Dynamic 4) (Some 8%nat) 8 true words_of_64.

(* ---- C18 ---- *)

(* Whatever the inverter returns, the receiver that undoes the inversions it has
   heard of recovers the data bit for bit; without callback the inversions are
   those of getInversionState. *)
Theorem C18_decodable d t n_bits data read d' ev out : let c := db_config d in
  dbi_config_ok c -> t + N.of_nat n_bits < two64 ->
  dbi_update d t n_bits (Some data) read = Value (d', ev, Some out) ->
  length out = Nat.div n_bits (dg_digits c) /\
  forall i, (i < length out)%nat ->
    exists b, nth_error (lb_inv (db_side d' read)) (Nat.div i (dg_sub c)) = Some b /\
      (dg_callback c = true -> heard (dbi_pins c) t ev (Nat.div i (dg_sub c)) = Some b) /\
      forall j, (j < dg_digits c)%nat -> received b (nth i out 0) j = level (nth i data 0) j.
Proof. exact (update_decodes d t n_bits data read d' ev out). Qed.
Print Assumptions C18_decodable.

Example C18_decodable_case : dbi_config_ok ddr4_dbi /\ exists d d' ev, dbi_new ddr4_dbi true = Value d /\
  dbi_update d 7 32 (Some [0; 255; 15; 1]) true = Value (d', ev, Some [255; 255; 15; 254]) /\
  lb_inv (db_side d' true) = [true; false; false; true] /\
  map (heard (dbi_pins ddr4_dbi) 7 ev) (seq 0 4) = [Some true; Some false; Some false; Some true].
Proof.
  split; [split; [cbn; lia|]; split; [cbn; lia|]; exists 2%nat; split; [lia|reflexivity]|].
  do 3 eexists. split; [vm_compute; reflexivity|]. split; [vm_compute; reflexivity|]. split; [vm_compute; reflexivity|]. vm_compute. reflexivity.
Qed.

(* Bursts of one size never fail and each returns data. *)
Theorem C18_accepts c m enable ops d : dbi_config_ok c -> fits c m -> (0 < m)%nat ->
  Forall (fun o => (m * dg_sub c <= length (tr_data o))%nat) ops -> dbi_new c enable = Value d ->
  exists d' outs, dbi_run (m * (dg_sub c * dg_digits c)) ops d = Value (d', outs) /\ length outs = length ops.
Proof. exact (fun Hc Hf Hm Ho Hn => run_ok c m ops d Hc Hf Hm (proj1 (new_ok c m enable d Hn)) Ho). Qed.
Print Assumptions C18_accepts.

Example C18_accepts_case : fits ddr4_dbi 4 /\ exists d, dbi_new ddr4_dbi true = Value d.
Proof. split; [cbn; lia|]. eexists. reflexivity. Qed.

(* Switched off it leaves data and state alone and makes no call. *)
Theorem C18_disabled d t n_bits data read : db_enable d = false ->
  dbi_update d t n_bits data read = Value (d, [], None).
Proof. exact (update_disabled d t n_bits data read). Qed.
Print Assumptions C18_disabled.

Example C18_disabled_case : exists d, dbi_new ddr4_dbi false = Value d /\ db_enable d = false.
Proof. eexists. split; reflexivity. Qed.

(* A burst longer than the first one writes behind the end of the vector of
   inversions when the vector's capacity happens to suffice. *)
Theorem C18_growing_burst_refuted : exists d d' ev out, dbi_new ddr4_dbi true = Value d /\
  dbi_update d 0 16 (Some [1; 2]) true = Value (d', ev, out) /\
  dbi_update d' 8 32 (Some [1; 2; 3; 4]) true = Fails UB.
Proof. do 4 eexists. split; [vm_compute; reflexivity|]. split; [vm_compute; reflexivity|]. vm_compute. reflexivity. Qed.
Print Assumptions C18_growing_burst_refuted.

(* ---- C19 ---- *)

(* No entry has more than half of its lines away from idle, none has more than
   before, and it is inverted exactly when more than half were. *)
Theorem C19_static_bound d t n_bits data read d' ev out (high : bool) : let c := db_config d in
  dbi_config_ok c -> dg_sub c = 1%nat -> dg_alg c = Static -> dg_idle c = (if high then PinH else PinL) ->
  entries_ok (dg_digits c) data ->
  dbi_update d t n_bits (Some data) read = Value (d', ev, Some out) ->
  forall i, (i < length out)%nat ->
    2 * consuming (dg_digits c) high (nth i out 0) <= N.of_nat (dg_digits c) /\
    consuming (dg_digits c) high (nth i out 0) <= consuming (dg_digits c) high (nth i data 0) /\
    (nth_error (lb_inv (db_side d' read)) i = Some true <->
     N.of_nat (dg_digits c) < 2 * consuming (dg_digits c) high (nth i data 0)).
Proof. exact (static_bounds d t n_bits data read d' ev out high). Qed.
Print Assumptions C19_static_bound.

Example C19_static_bound_case : entries_ok 8 [0; 255; 15; 1] /\ exists d d' ev, dbi_new ddr4_dbi true = Value d /\
  dbi_update d 7 32 (Some [0; 255; 15; 1]) true = Value (d', ev, Some [255; 255; 15; 254]) /\
  map (consuming 8 true) [0; 255; 15; 1] = [8; 0; 4; 7] /\ map (consuming 8 true) [255; 255; 15; 254] = [0; 0; 4; 1].
Proof.
  split; [repeat constructor|]. do 3 eexists. split; [vm_compute; reflexivity|]. split; [vm_compute; reflexivity|].
  split; [vm_compute; reflexivity|]. vm_compute. reflexivity.
Qed.

(* With two entries per chunk the decision is taken after the first one: this
   chunk is sent with 12 of 16 lines away from idle. *)
Theorem C19_subchunks_refuted : exists d d' ev, dbi_new lpddr6_dbi true = Value d /\
  dbi_update d 0 16 (Some [15; 255]) true = Value (d', ev, Some [15; 255]) /\
  N.of_nat (2 * 8) < 2 * (consuming 8 false 15 + consuming 8 false 255).
Proof. do 3 eexists. split; [vm_compute; reflexivity|]. split; [vm_compute; reflexivity|]. vm_compute. reflexivity. Qed.
Print Assumptions C19_subchunks_refuted.

(* And it can invert a chunk that was below half. *)
Theorem C19_subchunks_worse_refuted : exists d d' ev out, dbi_new lpddr6_dbi true = Value d /\
  dbi_update d 0 16 (Some [31; 0]) true = Value (d', ev, Some out) /\
  consuming 8 false 31 + consuming 8 false 0 < consuming 8 false (nth 0 out 0) + consuming 8 false (nth 1 out 0).
Proof. do 4 eexists. split; [vm_compute; reflexivity|]. split; [vm_compute; reflexivity|]. vm_compute. reflexivity. Qed.
Print Assumptions C19_subchunks_worse_refuted.

(* ---- C20 ---- *)

(* In a series of bursts of one direction, of at least two beats each, no entry
   differs from its predecessor on the same wires in more lines than the bound. *)
Theorem C20_dynamic_bound c k (high : bool) read per_beat beats ops d d' outs :
  dg_sub c = 1%nat -> dg_alg c = Dynamic k -> dg_idle c = (if high then PinH else PinL) -> (0 < dg_digits c)%nat ->
  dg_width c = Some (per_beat * dg_digits c)%nat -> (0 < per_beat)%nat -> (2 <= beats)%nat ->
  Forall (fun o => tr_read o = read /\ entries_ok (dg_digits c) (tr_data o) /\ tr_time o + N.of_nat beats < two64) ops ->
  dbi_new c true = Value d -> dbi_run (beats * per_beat * dg_digits c) ops d = Value (d', outs) ->
  calm (dg_digits c) beats per_beat (idle_word (dg_digits c) high)
       (N.max k (N.of_nat (dg_digits c) - k - 1)) None ops outs.
Proof. exact (dynamic_from_new c k high read per_beat beats ops d d' outs). Qed.
Print Assumptions C20_dynamic_bound.

Example C20_dynamic_bound_case : exists d d' outs, dbi_new dynamic_dbi true = Value d /\
  dbi_run (2 * 1 * 8) [mkTransfer 0 true [31; 1]; mkTransfer 2 true [0; 255]; mkTransfer 9 true [255; 0]] d = Value (d', outs) /\
  outs = [[224; 1]; [0; 0]; [0; 0]].
Proof. do 3 eexists. split; [vm_compute; reflexivity|]. split; [vm_compute; reflexivity|]. vm_compute. reflexivity. Qed.

(* Bursts of a single beat: the inverter takes the wires to be idle although the
   previous burst has just ended. *)
Theorem C20_single_beat_refuted : exists d d' outs, dbi_new dynamic_dbi true = Value d /\
  dbi_run 8 [mkTransfer 0 true [15]; mkTransfer 1 true [240]] d = Value (d', outs) /\
  ~ calm 8 1 1 0 (N.max 4 (8 - 4 - 1)) None [mkTransfer 0 true [15]; mkTransfer 1 true [240]] outs.
Proof.
  do 3 eexists. split; [vm_compute; reflexivity|]. split; [vm_compute; reflexivity|].
  intros H. cbn [calm] in H. destruct H as (_ & H & _). specialize (H 0%nat ltac:(vm_compute; lia)). revert H. vm_compute. intros H. now apply H.
Qed.
Print Assumptions C20_single_beat_refuted.

(* Two directions at the same time: the remembered beat is that of the other
   direction. *)
Theorem C20_other_direction_refuted : exists d d' o1 o2 o3, dbi_new dynamic_dbi true = Value d /\
  dbi_run 16 [mkTransfer 0 true [0; 15]; mkTransfer 0 false [0; 240]; mkTransfer 2 true [240; 0]] d = Value (d', [o1; o2; o3]) /\
  N.max 4 (8 - 4 - 1) < toggling 8 (nth 1 o1 0) (nth 0 o3 0).
Proof. do 5 eexists. split; [vm_compute; reflexivity|]. split; [vm_compute; reflexivity|]. vm_compute. reflexivity. Qed.
Print Assumptions C20_other_direction_refuted.

(* ---- C38 ---- *)

(* One pin: for any bursts that fit and follow each other, the statistics are
   those of the pin's level sequence. *)
Theorem C38_pin_counts max init idle bs t rate : (1 <= max)%nat -> bursts_ok max 0 bs ->
  last_burst bs <= t * rate -> t * rate < two64 ->
  exists p, pin_run bs (pin_new max init idle) = Value p /\
    pin_stats_at p t rate = Value (wrap_stats (pin_wave init idle bs (t * rate))).
Proof. exact (pin_counts max init idle bs t rate). Qed.
Print Assumptions C38_pin_counts.

Example C38_pin_counts_case : bursts_ok 8 0 [(3, [true; false; true]); (6, [false]); (9, [true; true])] /\
  pin_wave PinL PinL [(3, [true; false; true]); (6, [false]); (9, [true; true])] (6 * 2) = mkStats 4 8 6 3 3.
Proof. split; [vm_compute; repeat split; try reflexivity; try discriminate; lia|]. vm_compute. reflexivity. Qed.

(* The pins of an interface: after any bursts in both directions the statistics of
   a direction are those of the levels that follow from the data alone, summed
   over its pins, provided that a burst followed by a gap ends with a beat in
   which nothing is inverted. *)
Theorem C38_interface_pins c (high : bool) n beats max rate :
  dbi_config_ok c -> dg_sub c = 1%nat -> dg_alg c = Static -> dg_callback c = true ->
  dg_idle c = (if high then PinH else PinL) -> dg_width c = Some (n * dg_digits c)%nat -> (1 <= beats)%nat -> (1 <= max)%nat ->
  forall ops,
  Forall (fun o => (beats * n <= length (tr_data o))%nat /\ entries_ok (dg_digits c) (tr_data o)) ops ->
  (forall read, bursts_ok max 0 (pin_bursts (dg_digits c) high rate n beats 0 (of_side read ops)) /\
                settled (dg_digits c) high rate n beats (of_side read ops)) ->
  exists i0 i, dbi_if_new c max rate true = Value i0 /\ dbi_if_run (beats * (n * dg_digits c)) ops i0 = Value i /\
    forall read t q, last_burst (pin_bursts (dg_digits c) high rate n beats 0 (of_side read ops)) <= t * q -> t * q < two64 ->
      dbi_if_stats i t q read = Value (wrap_stats (sum_pins n (fun p =>
        pin_wave (dg_idle c) (dg_idle c) (pin_bursts (dg_digits c) high rate n beats p (of_side read ops)) (t * q)))).
Proof. exact (interface_pins c high n beats max rate). Qed.
Print Assumptions C38_interface_pins.

(* Three bursts: the second follows the first at once, the third after a gap. *)
Definition example_transfers : list transfer :=
  [mkTransfer 3 true [0; 255; 0; 1]; mkTransfer 4 true [255; 1; 255; 15]; mkTransfer 4 false [0; 0; 0; 255]; mkTransfer 9 true [0; 0; 0; 0]].
Example C38_interface_pins_case :
  Forall (fun o => (2 * 2 <= length (tr_data o))%nat /\ entries_ok 8 (tr_data o)) example_transfers /\
  (forall read, bursts_ok 8 0 (pin_bursts 8 true 2 2 2 0 (of_side read example_transfers)) /\
                settled 8 true 2 2 2 (of_side read example_transfers)) /\
  sum_pins 2 (fun p => pin_wave PinH PinH (pin_bursts 8 true 2 2 2 p (of_side true example_transfers)) (12 * 2)) = mkStats 40 8 8 4 4.
Proof.
  split; [repeat constructor|]. split; [|vm_compute; reflexivity].
  intros [|]; cbn [of_side filter example_transfers tr_read Bool.eqb].
  - split; [vm_compute; repeat split; try reflexivity; try discriminate; lia|].
    intros l o o' l' E. destruct l as [|? [|? [|? [|]]]]; cbn [app] in E; try discriminate.
    + injection E as <- <- _. left. reflexivity.
    + injection E as _ <- <- _. right. intros [|[|]] Hp; [reflexivity|reflexivity|lia].
  - split; [vm_compute; repeat split; try reflexivity; try discriminate; lia|].
    intros l o o' l' E. destruct l as [|? [|]]; cbn [app] in E; discriminate.
Qed.

(* Without that proviso it is false.  The call that returns a pin to idle after a
   gap carries the time of the next burst, so the pin is told of one beat too
   many: with DDR4's eight beats the assertion in its storage fails. *)
Theorem C38_gap_after_inversion_refuted : exists i0 i, dbi_if_new ddr4_dbi 8 2 true = Value i0 /\
  dbi_if_run (8 * 16) [mkTransfer 0 true (repeat 0 16)] i0 = Value i /\
  bursts_ok 8 0 (pin_bursts 8 true 2 2 8 0 [mkTransfer 0 true (repeat 0 16); mkTransfer 10 true (repeat 0 16)]) /\
  dbi_if_run (8 * 16) [mkTransfer 10 true (repeat 0 16)] i = Fails Assertion.
Proof.
  do 2 eexists. split; [vm_compute; reflexivity|]. split; [vm_compute; reflexivity|].
  split; [vm_compute; repeat split; try reflexivity; try discriminate; lia|]. vm_compute. reflexivity.
Qed.
Print Assumptions C38_gap_after_inversion_refuted.

(* With room for another beat, as in LPDDR4, the statistics are wrong instead:
   every pin loses a beat away from idle. *)
Definition gap_transfers : list transfer :=
  [mkTransfer 0 true [255; 255; 255; 255]; mkTransfer 10 true [255; 255; 255; 255]; mkTransfer 11 true [255; 255; 255; 255]].
Theorem C38_gap_after_inversion_counts_refuted : exists i0 i s, dbi_if_new lpddr4_dbi 32 2 true = Value i0 /\
  dbi_if_run (2 * 16) gap_transfers i0 = Value i /\ dbi_if_stats i 15 2 true = Value s /\
  ones s < ones (sum_pins 2 (fun p => pin_wave PinL PinL (pin_bursts 8 false 2 2 2 p gap_transfers) (15 * 2))).
Proof.
  do 3 eexists. split; [vm_compute; reflexivity|]. split; [vm_compute; reflexivity|]. split; [vm_compute; reflexivity|].
  vm_compute. reflexivity.
Qed.
Print Assumptions C38_gap_after_inversion_counts_refuted.

(* The time given to set is multiplied by the data rate twice. *)
Theorem C38_set_rate_refuted : exists p, pin_set (pin_new 8 PinL PinL) 4 PinH 2 = Value p /\
  pin_stats_at p 4 2 = Value (mkStats 0 16 0 0 0) /\ pin_wave PinL PinL [(4 * 2, [true])] (4 * 2) = mkStats 0 8 0 0 0.
Proof. eexists. split; [vm_compute; reflexivity|]. split; [vm_compute; reflexivity|]. vm_compute. reflexivity. Qed.
Print Assumptions C38_set_rate_refuted.

(* Statistics are read with data rate 2 whatever the memory's data rate: with a
   data rate of 4 a query after the burst fails. *)
Theorem C38_query_rate_refuted : exists i0 i, dbi_if_new lpddr4_dbi 32 4 true = Value i0 /\
  dbi_if_run (2 * 16) [mkTransfer 10 true [0; 0; 0; 0]] i0 = Value i /\ dbi_if_stats i 15 2 true = Fails Assertion.
Proof. do 2 eexists. split; [vm_compute; reflexivity|]. split; [vm_compute; reflexivity|]. vm_compute. reflexivity. Qed.
Print Assumptions C38_query_rate_refuted.
