(* Properties of the toggling-rate estimator and the data bus: C16, C40. *)
From Coq Require Import NArith ZArith QArith Lia List Bool.
From Verif Require Import Base Bits BusModel WaveSpec BitFacts BusProofs ToggleModel ToggleProofs DefineProofs DataProofs EstimatorProofs.
Import ListNotations.
Local Open Scope N_scope.

(* ---- C16 ---- *)

(* A history with a burst, a burst cut short by disabling, and one after
   enabling again. *)
Definition example_toggles : list toggle_op := [TLoad 2 64; TLoad 10 64; TDisable 12; TLoad 13 64; TEnable 20; TLoad 25 64].

(* The reported statistics are the estimate for the driven beats and the idle
   beats of the history, modulo 2^64. *)
Theorem C16_toggling_is_estimate width datarate rate duty idle high on ops t h0 h :
  toggling_new width datarate rate duty idle on = Value h0 -> high_idle idle = Some high ->
  toggles_in_order width datarate 0 t ops -> t * datarate < two64 ->
  toggle_run ops h0 = Value h ->
  beats_driven width datarate on ops (t * datarate) <= beats_on width datarate on ops (t * datarate) /\
  toggling_get h t = Value (wrap_stats (estimate width (beats_driven width datarate on ops (t * datarate))
    (beats_on width datarate on ops (t * datarate) - beats_driven width datarate on ops (t * datarate)) rate duty high)).
Proof. exact (toggling_is_estimate width datarate rate duty idle high on ops t h0 h). Qed.
Print Assumptions C16_toggling_is_estimate.

(* New rates hold for the whole history: the statistics are the estimate with the
   new rates for all beats so far. *)
Theorem C16_redefined width datarate rate duty idle rate' duty' idle' high on ops t h0 h :
  toggling_new width datarate rate duty idle on = Value h0 -> in_unit rate' = true -> in_unit duty' = true -> high_idle idle' = Some high ->
  toggles_in_order width datarate 0 t ops -> t * datarate < two64 -> toggle_run ops h0 = Value h ->
  toggling_get (toggling_define h rate' duty' idle') t = Value (wrap_stats (estimate width (beats_driven width datarate on ops (t * datarate))
    (beats_on width datarate on ops (t * datarate) - beats_driven width datarate on ops (t * datarate)) rate' duty' high)).
Proof. exact (redefined width datarate rate duty idle rate' duty' idle' high on ops t h0 h). Qed.
Print Assumptions C16_redefined.

Example C16_redefined_case :
  toggles_in_order 8 2 0 27 example_toggles /\
  exists h0 h, toggling_new 8 2 0 0 TogL true = Value h0 /\ toggle_run example_toggles h0 = Value h /\
    toggling_get (toggling_define h (1 # 3) (7 # 10) TogH) 27 = Value (mkStats 264 32 32 16 16).
Proof.
  split; [cbn; unfold two64; lia|].
  do 2 eexists. split; [vm_compute; reflexivity|]. split; [vm_compute; reflexivity|]. vm_compute. reflexivity.
Qed.

Example C16_toggling_is_estimate_case :
  toggles_in_order 8 2 0 27 example_toggles /\
  beats_on 8 2 true example_toggles (27 * 2) = 38 /\ beats_driven 8 2 true example_toggles (27 * 2) = 16 /\
  exists h0 h, toggling_new 8 2 (1 # 3) (7 # 10) TogH true = Value h0 /\ toggle_run example_toggles h0 = Value h /\
    toggling_get h 27 = Value (mkStats 264 32 32 16 16).
Proof.
  split; [cbn; unfold two64; lia|]. split; [vm_compute; reflexivity|]. split; [vm_compute; reflexivity|].
  do 2 eexists. split; [vm_compute; reflexivity|]. split; [vm_compute; reflexivity|]. vm_compute. reflexivity.
Qed.

(* Ones and zeroes add up to all lines of all beats but at most one beat; rises
   equal falls, and both together are at most all lines of the driven beats. *)
Theorem C16_estimate_conserves width d i rate duty high : in_unit duty = true -> in_unit rate = true ->
  let s := estimate width d i rate duty high in
  ones s + zeroes s <= width * (d + i) /\ width * (d + i) <= ones s + zeroes s + width /\
  o2z s = z2o s /\ changes s = o2z s + z2o s /\ 2 * o2z s <= width * d.
Proof. exact (estimate_conserves width d i rate duty high). Qed.
Print Assumptions C16_estimate_conserves.

Example C16_estimate_conserves_case : in_unit (7 # 10) = true /\ in_unit (1 # 3) = true /\
  estimate 8 16 22 (1 # 3) (7 # 10) true = mkStats 264 32 32 16 16.
Proof. vm_compute. repeat split. Qed.

(* The end of the last burst is that of the last burst loaded: in beats, and in
   cycles the first cycle boundary not before it. *)
Theorem C16_last_burst : forall h t len h', toggling_burst h t len = Value h' -> tg_enabled h = true ->
  t * tg_datarate h + len + tg_datarate h < two64 ->
  toggling_last_burst h' false = Value (t * tg_datarate h + len) /\
  exists u, toggling_last_burst h' true = Value u /\ t * tg_datarate h + len <= u * tg_datarate h < t * tg_datarate h + len + tg_datarate h.
Proof. exact last_burst_end. Qed.
Print Assumptions C16_last_burst.
Example C16_last_burst_case : exists h0 h, toggling_new 8 2 0 0 TogL true = Value h0 /\ toggling_burst h0 5 3 = Value h /\ tg_enabled h0 = true /\
  toggling_last_burst h false = Value 13 /\ toggling_last_burst h true = Value 7.
Proof. do 2 eexists. split; [vm_compute; reflexivity|]. split; [vm_compute; reflexivity|]. repeat split. Qed.

(* The setter does not check the range the constructor asserts: with a duty cycle
   above 1 reading the statistics converts a negative double to uint64_t. *)
Theorem C16_unchecked_duty_refuted : exists h0 h, toggling_new 8 2 (1 # 3) (7 # 10) TogL true = Value h0 /\
  toggle_run [TLoad 0 64] (toggling_define h0 (1 # 3) 2 TogL) = Value h /\ toggling_get h 10 = Fails UB.
Proof. do 2 eexists. split; [vm_compute; reflexivity|]. split; vm_compute; reflexivity. Qed.
Print Assumptions C16_unchecked_duty_refuted.

(* A new definition also changes the estimate for bursts sent before it. *)
Theorem C16_new_definition_is_retroactive_refuted : exists h0 h s s', toggling_new 8 2 0 0 TogL true = Value h0 /\
  toggle_run [TLoad 0 64] h0 = Value h /\ toggling_get h 10 = Value s /\
  toggling_get (toggling_define h 0 1 TogL) 10 = Value s' /\ ones s = 0 /\ ones s' = 64.
Proof.
  do 4 eexists. split; [vm_compute; reflexivity|]. split; [vm_compute; reflexivity|].
  split; [vm_compute; reflexivity|]. split; [vm_compute; reflexivity|]. split; vm_compute; reflexivity.
Qed.
Print Assumptions C16_new_definition_is_retroactive_refuted.

(* ---- C40 ---- *)

Definition example_config : data_config := mkDataConfig 8 2 (1 # 3) (7 # 10) TogL (1 # 2) (1 # 4) TogH.
Definition example_bursts : list data_op :=
  [DLoad true 1 32 (Some [1; 2; 3; 255]); DLoad false 2 16 (Some [7; 128]); DLoad true 3 16 (Some [9; 8]);
   DLoad false 9 16 None; DLoad true 12 0 (Some [])].
Definition example_estimates : list data_op := [DLoad true 21 32 None; DLoad false 22 16 None; DLoad true 24 32 (Some [0; 0; 0; 0])].

(* Histories that agree on the requests of one direction (and on the mode
   switches) leave that direction in the same state, whatever happens in the
   other direction. *)
Theorem C40_directions_independent read ops ops' d e d' e' : filter (concerns read) ops = filter (concerns read) ops' ->
  side read d = side read e -> data_run ops d = Value d' -> data_run ops' e = Value e' -> side read d' = side read e'.
Proof. exact (sides_independent read ops ops' d e d' e'). Qed.
Print Assumptions C40_directions_independent.

Example C40_directions_independent_case : exists d d' e',
  data_new 64 example_config ModeBus = Value d /\ data_run example_bursts d = Value d' /\
  data_run (filter (concerns true) example_bursts) d = Value e' /\ side false d' <> side false e' /\
  filter (concerns true) example_bursts = filter (concerns true) (filter (concerns true) example_bursts).
Proof.
  do 3 eexists. split; [vm_compute; reflexivity|]. split; [vm_compute; reflexivity|]. split; [vm_compute; reflexivity|].
  split; [vm_compute; discriminate|reflexivity].
Qed.

(* In bus mode each direction reports the waveform of its own bursts and the
   estimators report nothing. *)
Theorem C40_bus_mode max c rh wh ops t : config_ok max c ->
  high_idle (dc_read_idle c) = Some rh -> high_idle (dc_write_idle c) = Some wh ->
  Forall is_load ops -> payloads_ok c true ops -> payloads_ok c false ops ->
  last_start (dc_rate c) (payloads true ops) <= t * dc_rate c -> last_start (dc_rate c) (payloads false ops) <= t * dc_rate c ->
  t * dc_rate c < two64 ->
  exists d d', data_new max c ModeBus = Value d /\ data_run ops d = Value d' /\
    data_get d' t = Value (mkDataStats (wrap_stats (wave_of c true rh ops (t * dc_rate c)))
                                       (wrap_stats (wave_of c false wh ops (t * dc_rate c))) stats0 stats0).
Proof. exact (bus_mode_counts max c rh wh ops t). Qed.
Print Assumptions C40_bus_mode.

Example C40_bus_mode_case : config_ok 64 example_config /\ Forall is_load example_bursts /\
  payloads_ok example_config true example_bursts /\ payloads_ok example_config false example_bursts /\
  last_start 2 (payloads true example_bursts) <= 20 * 2 /\ last_start 2 (payloads false example_bursts) <= 20 * 2 /\
  wave_of example_config true false example_bursts 40 = mkStats 15 305 22 11 11.
Proof.
  split; [repeat split; try reflexivity; cbn; lia|]. split; [repeat constructor|].
  split; [split; [repeat constructor; cbn; try lia; reflexivity|cbn; lia]|].
  split; [split; [repeat constructor; cbn; try lia; reflexivity|cbn; lia]|].
  split; [vm_compute; discriminate|]. split; [vm_compute; discriminate|]. vm_compute. reflexivity.
Qed.

(* In toggling mode each direction reports the estimate for its own bursts and
   the buses report nothing. *)
Theorem C40_toggling_mode max c rh wh ops t d d' : config_ok max c ->
  high_idle (dc_read_idle c) = Some rh -> high_idle (dc_write_idle c) = Some wh ->
  Forall is_load ops ->
  toggles_in_order (N.of_nat (dc_width c)) (dc_rate c) 0 t (lengths true ops) ->
  toggles_in_order (N.of_nat (dc_width c)) (dc_rate c) 0 t (lengths false ops) ->
  t * dc_rate c < two64 ->
  data_new max c ModeToggling = Value d -> data_run ops d = Value d' ->
  data_get d' t = Value (mkDataStats stats0 stats0 (wrap_stats (estimate_of c true true rh (lengths true ops) (t * dc_rate c)))
                                                   (wrap_stats (estimate_of c false true wh (lengths false ops) (t * dc_rate c)))).
Proof. exact (toggling_mode_counts max c rh wh ops t d d'). Qed.
Print Assumptions C40_toggling_mode.

Example C40_toggling_mode_case :
  toggles_in_order 8 2 0 30 (lengths true example_estimates) /\ toggles_in_order 8 2 0 30 (lengths false example_estimates) /\
  exists d d', data_new 64 example_config ModeToggling = Value d /\ data_run example_estimates d = Value d'.
Proof.
  split; [vm_compute; repeat split; try reflexivity; discriminate|].
  split; [vm_compute; repeat split; try reflexivity; discriminate|].
  do 2 eexists. split; [vm_compute; reflexivity|]. vm_compute. reflexivity.
Qed.

(* Switching from the bus to the estimator: the bus keeps the waveform up to the
   switch, the estimator covers the time from the switch on. *)
Theorem C40_switch max c rh wh ops ops' s u d d' : config_ok max c ->
  high_idle (dc_read_idle c) = Some rh -> high_idle (dc_write_idle c) = Some wh ->
  Forall is_load ops -> Forall is_load ops' -> payloads_ok c true ops -> payloads_ok c false ops ->
  last_start (dc_rate c) (payloads true ops) < s * dc_rate c -> last_start (dc_rate c) (payloads false ops) < s * dc_rate c ->
  toggles_in_order (N.of_nat (dc_width c)) (dc_rate c) s u (lengths true ops') ->
  toggles_in_order (N.of_nat (dc_width c)) (dc_rate c) s u (lengths false ops') ->
  u * dc_rate c < two64 ->
  data_new max c ModeBus = Value d -> data_run (ops ++ DToggle s :: ops') d = Value d' ->
  data_get d' u = Value (mkDataStats (wrap_stats (wave_of c true rh ops (s * dc_rate c))) (wrap_stats (wave_of c false wh ops (s * dc_rate c)))
    (wrap_stats (estimate_of c true false rh (TEnable s :: lengths true ops') (u * dc_rate c)))
    (wrap_stats (estimate_of c false false wh (TEnable s :: lengths false ops') (u * dc_rate c)))).
Proof. exact (switch_counts max c rh wh ops ops' s u d d'). Qed.
Print Assumptions C40_switch.

Example C40_switch_case :
  last_start 2 (payloads true example_bursts) < 20 * 2 /\ last_start 2 (payloads false example_bursts) < 20 * 2 /\
  toggles_in_order 8 2 20 30 (lengths true example_estimates) /\ toggles_in_order 8 2 20 30 (lengths false example_estimates) /\
  exists d d', data_new 64 example_config ModeBus = Value d /\
    data_run (example_bursts ++ DToggle 20 :: example_estimates) d = Value d'.
Proof.
  split; [reflexivity|]. split; [reflexivity|].
  split; [vm_compute; repeat split; try reflexivity; discriminate|].
  split; [vm_compute; repeat split; try reflexivity; discriminate|].
  do 2 eexists. split; [vm_compute; reflexivity|]. vm_compute. reflexivity.
Qed.

(* No beat is counted twice or lost: bus and estimator together cover all lines
   of all beats but at most one beat. *)
Theorem C40_switch_conserves max c (read high : bool) ops ops' s u : config_ok max c ->
  toggles_in_order (N.of_nat (dc_width c)) (dc_rate c) s u (lengths read ops') ->
  let b := wave_of c read high ops (s * dc_rate c) in
  let e := estimate_of c read false high (TEnable s :: lengths read ops') (u * dc_rate c) in
  let all := N.of_nat (dc_width c) * (u * dc_rate c) in
  ones b + zeroes b + (ones e + zeroes e) <= all /\ all <= ones b + zeroes b + (ones e + zeroes e) + N.of_nat (dc_width c).
Proof. exact (switch_conserves max c read high ops ops' s u). Qed.
Print Assumptions C40_switch_conserves.
Example C40_switch_conserves_case : config_ok 64 example_config /\
  toggles_in_order (N.of_nat (dc_width example_config)) (dc_rate example_config) 20 30 (lengths true example_estimates).
Proof. split; [apply C40_bus_mode_case|apply C40_switch_case]. Qed.

(* However often and in whatever direction the mode is switched, the estimators
   report the estimate for the beats of the time they were switched on, and for the
   bursts loaded in that time. *)
Theorem C40_estimators : forall max c m rh wh ops t d d' st, config_ok max c ->
  high_idle (dc_read_idle c) = Some rh -> high_idle (dc_write_idle c) = Some wh ->
  let on := negb (is_bus m) in
  toggles_in_order (N.of_nat (dc_width c)) (dc_rate c) 0 t (seen true on ops) ->
  toggles_in_order (N.of_nat (dc_width c)) (dc_rate c) 0 t (seen false on ops) ->
  t * dc_rate c < two64 ->
  data_new max c m = Value d -> data_run ops d = Value d' -> data_get d' t = Value st ->
  ds_tread st = wrap_stats (estimate_of c true on rh (seen true on ops) (t * dc_rate c)) /\
  ds_twrite st = wrap_stats (estimate_of c false on wh (seen false on ops) (t * dc_rate c)).
Proof. exact estimators_through. Qed.
Print Assumptions C40_estimators.
Example C40_estimators_case :
  let ops := [DLoad true 1 32 None; DBus 10; DLoad false 12 16 (Some [7; 128]); DToggle 20; DLoad true 21 32 None; DLoad false 22 16 None; DBus 26] in
  seen true true ops = [TLoad 1 32; TDisable 10; TEnable 20; TLoad 21 32; TDisable 26] /\
  toggles_in_order 8 2 0 30 (seen true true ops) /\ toggles_in_order 8 2 0 30 (seen false true ops) /\
  exists d d' st, data_new 64 example_config ModeToggling = Value d /\ data_run ops d = Value d' /\ data_get d' 30 = Value st /\
    ones (ds_twrite st) = 240 /\ zeroes (ds_twrite st) = 8.
Proof.
  split; [reflexivity|]. split; [vm_compute; repeat split; try reflexivity; discriminate|].
  split; [vm_compute; repeat split; try reflexivity; discriminate|].
  do 3 eexists. split; [vm_compute; reflexivity|]. split; [vm_compute; reflexivity|]. split; [vm_compute; reflexivity|]. vm_compute. split; reflexivity.
Qed.

(* Switching in the other direction counts beats twice: the bus, enabled at 10,
   also counts the beats 0 to 9 that the estimator has counted. *)
Theorem C40_switch_back_refuted : exists d d' s, data_new 64 example_config ModeToggling = Value d /\
  data_run [DBus 10] d = Value d' /\ data_get d' 20 = Value s /\
  N.of_nat 8 * (20 * 2) < ones (ds_read s) + zeroes (ds_read s) + (ones (ds_tread s) + zeroes (ds_tread s)).
Proof.
  do 3 eexists. split; [vm_compute; reflexivity|]. split; [vm_compute; reflexivity|]. split; [vm_compute; reflexivity|].
  vm_compute. reflexivity.
Qed.
Print Assumptions C40_switch_back_refuted.

(* Every width up to 4096 gets a bus of sufficient capacity; wider ones fail. *)
Theorem C40_preset_capacity width :
  ((width <= 4096)%nat -> exists max, preset_capacity width = Value max /\ (width <= max)%nat) /\
  ((4096 < width)%nat -> preset_capacity width = Fails Assertion).
Proof. exact (preset_capacity_ok width). Qed.
Print Assumptions C40_preset_capacity.
Example C40_preset_capacity_case : preset_capacity 100 = Value 256%nat /\ preset_capacity 4097 = Fails Assertion.
Proof. split; vm_compute; reflexivity. Qed.
