(* C56: traces run one after another.  When nothing is under way at the end of the
   first trace, the times, counters and energies of both together are the sums of
   those of the two on their own. *)
From Coq Require Import NArith QArith List Bool.
From Verif Require Import Base Command CoreModel HistorySpec DeviceSpec ExampleCores StatsModel EnergyModel EnergySpec EnergyExamples IfEnergyModel Bits InterfaceModel InterfaceSpec
  DramModel DramSpec DramExamples ProgressSpec ProgressProofs ProgressQuery ProgressExamples ProgressTop ChargeSpec ChargeProofs ChargeTop
  ComposeSpec ComposeProofs ComposeTop ComposeMain ComposeExamples.
Import ListNotations.
Local Open Scope N_scope.

Theorem C56_accepted : forall p cs1 cs2 T t, legal_history p cs1 -> legal_history p cs2 -> rests p cs1 T -> timely p cs2 t ->
  legal_history p (cs1 ++ later T cs2).
Proof. exact sequence_legal. Qed.
Print Assumptions C56_accepted.

Theorem C56_rank_times : forall p cs1 cs2 T t, DeviceSpec.well_formed p -> legal_history p cs1 -> legal_history p cs2 -> rests p cs1 T -> timely p cs2 t ->
  timely p (cs1 ++ later T cs2) (T + t) -> forall r, (r < ms_ranks p)%nat ->
  exists v1 v2, rank_view p cs1 T r = Some v1 /\ rank_view p cs2 t r = Some v2 /\ rank_view p (cs1 ++ later T cs2) (T + t) r = Some (cycles_sum v1 v2).
Proof. exact sequence_rank. Qed.
Print Assumptions C56_rank_times.

Theorem C56_bank_times : forall p cs1 cs2 T t, DeviceSpec.well_formed p -> legal_history p cs1 -> legal_history p cs2 -> rests p cs1 T -> timely p cs2 t ->
  timely p (cs1 ++ later T cs2) (T + t) -> forall r b, (r < ms_ranks p)%nat -> (b < ms_banks p)%nat ->
  exists v1 v2, bank_view p cs1 T r b = Some v1 /\ bank_view p cs2 t r b = Some v2 /\ bank_view p (cs1 ++ later T cs2) (T + t) r b = Some (cycles_sum v1 v2).
Proof. exact sequence_bank. Qed.
Print Assumptions C56_bank_times.

Theorem C56_counters : forall p cs1 cs2 T t, DeviceSpec.well_formed p -> legal_history p cs1 -> legal_history p cs2 -> rests p cs1 T -> timely p cs2 t ->
  timely p (cs1 ++ later T cs2) (T + t) -> forall r b k, (r < ms_ranks p)%nat -> (b < ms_banks p)%nat ->
  exists n1 n2, bank_counter p cs1 T r b k = Some n1 /\ bank_counter p cs2 t r b k = Some n2 /\ bank_counter p (cs1 ++ later T cs2) (T + t) r b k = Some (n1 + n2).
Proof. exact sequence_counter. Qed.
Print Assumptions C56_counters.

Theorem C56_energy : forall p cs1 cs2 T t, DeviceSpec.well_formed p -> legal_history p cs1 -> legal_history p cs2 -> rests p cs1 T -> timely p cs2 t ->
  timely p (cs1 ++ later T cs2) (T + t) -> forall e, EnergySpec.well_formed e -> same_memory p e ->
  exists s1 s2 s en1 en2 en, run_core p cs1 (core_new p) = Ok s1 /\ run_core p cs2 (core_new p) = Ok s2 /\ run_core p (cs1 ++ later T cs2) (core_new p) = Ok s /\
    calc_energy e (fill_core (snd (window_stats p T s1))) = Exactly en1 /\ calc_energy e (fill_core (snd (window_stats p t s2))) = Exactly en2 /\
    calc_energy e (fill_core (snd (window_stats p (T + t) s))) = Exactly en /\ (en_total en == en_total en1 + en_total en2)%Q.
Proof. exact sequence_energy. Qed.
Print Assumptions C56_energy.

(* The traces of all five standards that visit every kind of state, twice. *)
Example C56_sequence_case : Forall (fun s => let p := dp_core (ex_dspec s) in let cs := day_commands s in
  (DeviceSpec.well_formed p /\ timely p cs 1000 /\ legal_history p cs) /\ rests p cs 1000 /\ timely p (cs ++ later 1000 cs) (1000 + 1000) /\
  EnergySpec.well_formed (dp_ce (ex_dspec s)) /\ same_memory p (dp_ce (ex_dspec s))) five.
Proof.
  apply in_five. intros s. split; [apply day_legal|]. split; [apply day_rests|]. split; [apply day_twice|]. split; [apply ex_energy_formed|apply ex_same].
Qed.
(* In DDR4 the rank is active for some cycles of each and powered down for others. *)
Example C56_sequence_seen :
  match rank_view (dp_core (ex_dspec DDR4)) (day_commands DDR4) 1000 0, rank_view (dp_core (ex_dspec DDR4)) (day_commands DDR4 ++ later 1000 (day_commands DDR4)) 2000 0 with
  | Some v, Some w => (0 <? cy_act v) && (0 <? cy_pre v) && (0 <? cy_sref v) && (cy_act w =? 2 * cy_act v) && (cy_pre w =? 2 * cy_pre v) && (cy_sref w =? 2 * cy_sref v)
  | _, _ => false
  end = true.
Proof. vm_compute. reflexivity. Qed.

(* After both the memory is at rest again, so that the theorems apply once more. *)
Theorem C56_rest_again : forall p cs1 cs2 T, rests p cs1 T -> nondecreasing 0 (map cmd_ts cs2) -> forall t, rests p cs2 t -> rests p (cs1 ++ later T cs2) (T + t).
Proof. exact both_rests. Qed.
Print Assumptions C56_rest_again.

(* Being at rest is needed: a row that the first trace leaves open stays open. *)
Theorem C56_any_two_refuted : exists p cs1 cs2 T t, DeviceSpec.well_formed p /\ legal_history p cs1 /\ legal_history p cs2 /\ timely p cs1 T /\ timely p cs2 t /\
  timely p (cs1 ++ later T cs2) (T + t) /\ legal_history p (cs1 ++ later T cs2) /\
  exists v1 v2, rank_view p cs1 T 0 = Some v1 /\ rank_view p cs2 t 0 = Some v2 /\ rank_view p (cs1 ++ later T cs2) (T + t) 0 <> Some (cycles_sum v1 v2).
Proof. exact open_row_carries. Qed.
Print Assumptions C56_any_two_refuted.

(* Delaying a whole trace adds precharge standby cycles and nothing else. *)
Theorem C56_delayed : forall p cs T t, DeviceSpec.well_formed p -> legal_history p cs -> timely p cs t -> timely p (later T cs) (T + t) ->
  legal_history p (later T cs) /\
  (forall r, (r < ms_ranks p)%nat -> exists v, rank_view p cs t r = Some v /\ rank_view p (later T cs) (T + t) r = Some (cycles_sum (mkCycles 0 T 0 0 0 0) v)) /\
  (forall r b, (r < ms_ranks p)%nat -> (b < ms_banks p)%nat ->
     (exists v, bank_view p cs t r b = Some v /\ bank_view p (later T cs) (T + t) r b = Some (cycles_sum (mkCycles 0 T 0 0 0 0) v)) /\
     forall k, bank_counter p (later T cs) (T + t) r b k = bank_counter p cs t r b k).
Proof. exact delayed. Qed.
Print Assumptions C56_delayed.
Theorem C56_delayed_energy : forall p e I cs T t, DeviceSpec.well_formed p -> EnergySpec.well_formed e -> same_memory p e -> backgrounds e I ->
  legal_history p cs -> timely p cs t -> timely p (later T cs) (T + t) ->
  exists s s' en en', run_core p cs (core_new p) = Ok s /\ run_core p (later T cs) (core_new p) = Ok s' /\
    calc_energy e (fill_core (snd (window_stats p t s))) = Exactly en /\ calc_energy e (fill_core (snd (window_stats p (T + t) s'))) = Exactly en' /\
    (en_total en' == en_total en + qnat (ms_ranks p) * qnat (es_devices e) * qsum (fun w => pw_v w * pw_i2n w) (es_domains e) * (qn T * es_tCK e))%Q.
Proof. exact delayed_energy. Qed.
Print Assumptions C56_delayed_energy.
Example C56_delayed_case : Forall (fun s => let p := dp_core (ex_dspec s) in let cs := day_commands s in
  (DeviceSpec.well_formed p /\ timely p cs 1000 /\ legal_history p cs) /\ timely p (later 500 cs) (500 + 1000) /\
  EnergySpec.well_formed (dp_ce (ex_dspec s)) /\ same_memory p (dp_ce (ex_dspec s)) /\ exists I, backgrounds (dp_ce (ex_dspec s)) I) five.
Proof.
  apply in_five. intros s. split; [apply day_legal|]. split; [apply day_late|]. split; [apply ex_energy_formed|]. split; [apply ex_same|]. apply backgrounds_exist, ex_energy_formed.
Qed.

(* Running a trace n times takes n times the energy. *)
Theorem C56_repeated : forall p cs T e n, DeviceSpec.well_formed p -> EnergySpec.well_formed e -> same_memory p e -> legal_history p cs -> rests p cs T ->
  timely p cs T -> timely p (looped T cs n) (N.of_nat n * T) ->
  legal_history p (looped T cs n) /\
  exists s1 s en1 en, run_core p cs (core_new p) = Ok s1 /\ run_core p (looped T cs n) (core_new p) = Ok s /\
    calc_energy e (fill_core (snd (window_stats p T s1))) = Exactly en1 /\ calc_energy e (fill_core (snd (window_stats p (N.of_nat n * T) s))) = Exactly en /\
    (en_total en == qnat n * en_total en1)%Q.
Proof. exact loop_energies. Qed.
Print Assumptions C56_repeated.
Example C56_repeated_case : Forall (fun s => let p := dp_core (ex_dspec s) in let cs := day_commands s in
  (DeviceSpec.well_formed p /\ timely p cs 1000 /\ legal_history p cs) /\ rests p cs 1000 /\ timely p (looped 1000 cs 3) (N.of_nat 3 * 1000) /\
  EnergySpec.well_formed (dp_ce (ex_dspec s)) /\ same_memory p (dp_ce (ex_dspec s))) five.
Proof.
  apply in_five. intros s. split; [apply day_legal|]. split; [apply day_rests|]. split; [apply day_thrice|]. split; [apply ex_energy_formed|apply ex_same].
Qed.
