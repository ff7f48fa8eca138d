(* C25, C26, C27, C28, C41, C42: core energy. *)
From Coq Require Import QArith NArith List Bool Arith.
From Verif Require Import Base Command CoreModel Bits StatsModel StatsSpec EnergyModel EnergySpec EnergyProofs EnergyMore EnergyLoops EnergyExamples.
Import ListNotations.
Local Open Scope Q_scope.

(* C25: the energy of the sum of two statistics is the sum of the energies, number by number. *)
Theorem C25_energy_additive p a b : well_formed p -> covers p a -> covers p b -> no_wrap a b ->
  exists ea eb e, calc_energy p a = Exactly ea /\ calc_energy p b = Exactly eb /\ calc_energy p (sim_add a b) = Exactly e /\ is_sum ea eb e.
Proof. exact (energy_additive p a b). Qed.
Print Assumptions C25_energy_additive.
Example C25_energy_additive_case : well_formed ex_ddr4 /\ covers ex_ddr4 (ex_stats 1) /\ covers ex_ddr4 (ex_stats 2) /\ no_wrap (ex_stats 1) (ex_stats 2).
Proof. split; [exact ex_ddr4_wf|]. split; [apply ex_covers|]. split; [apply ex_covers|exact ex_no_wrap]. Qed.
Theorem C25_total_additive a b c : is_sum a b c -> en_total c == en_total a + en_total b.
Proof. exact (is_sum_total a b c). Qed.
Print Assumptions C25_total_additive.
Example C25_total_additive_case : is_sum (mkE [ei_zero] 1 2 3 4 5 6) (mkE [ei_zero] 1 1 1 1 1 1) (mkE [ei_zero] 2 3 4 5 6 7).
Proof. intros [j c| | | | | |]; try reflexivity. destruct j as [|[|j]]; cbn; try exact Logic.I. destruct c; reflexivity. Qed.
Theorem C25_zero p a : well_formed p -> covers p a -> all_zero a ->
  exists e, calc_energy p a = Exactly e /\ all_numbers (fun q => q == 0) e /\ en_total e == 0.
Proof. exact (energy_zero p a). Qed.
Print Assumptions C25_zero.
Example C25_zero_case : well_formed ex_ddr4 /\ covers ex_ddr4 (loop_stats ex_ddr4 0 nothing nothing) /\ all_zero (loop_stats ex_ddr4 0 nothing nothing).
Proof. split; [exact ex_ddr4_wf|]. split; [split; cbn; apply Nat.le_refl|each_place]. Qed.

(* C26: sane currents give non-negative, monotone energies. *)
Theorem C26_nonnegative p st : well_formed p -> sane p -> covers p st ->
  exists e, calc_energy p st = Exactly e /\ all_numbers (fun q => 0 <= q) e.
Proof. exact (energy_nonneg p st). Qed.
Print Assumptions C26_nonnegative.
Example C26_nonnegative_case : sane ex_ddr4 /\ sane ex_lpddr5.
Proof. exact (conj ex_sane ex_sane5). Qed.
Theorem C26_monotone p a b : well_formed p -> sane p -> covers p a -> covers p b -> counts_le a b ->
  exists ea eb, calc_energy p a = Exactly ea /\ calc_energy p b = Exactly eb /\ at_most ea eb /\ en_total ea <= en_total eb.
Proof. exact (energy_monotone p a b). Qed.
Print Assumptions C26_monotone.
Example C26_monotone_case : counts_le (ex_stats 1) (ex_stats 2).
Proof. exact ex_counts_le. Qed.

(* C27: the layout of the slots. *)
Theorem C27_slot_count p st e : calc_energy p st = Exactly e -> covers p st -> length (en_bank e) = (es_ranks p * es_devices p * es_banks p)%nat.
Proof. exact (slot_count p st e). Qed.
Print Assumptions C27_slot_count.
Theorem C27_slot_in_range p r d b : (r < es_ranks p)%nat -> (d < es_devices p)%nat -> (b < es_banks p)%nat ->
  (slot p r d b < es_ranks p * es_devices p * es_banks p)%nat.
Proof. exact (slot_in_range p r d b). Qed.
Print Assumptions C27_slot_in_range.
Theorem C27_slot_injective p r d b r' d' b' : (d < es_devices p)%nat -> (b < es_banks p)%nat -> (d' < es_devices p)%nat -> (b' < es_banks p)%nat ->
  slot p r d b = slot p r' d' b' -> r = r' /\ d = d' /\ b = b'.
Proof. exact (slot_injective p r d b r' d' b'). Qed.
Print Assumptions C27_slot_injective.
Theorem C27_slot_surjective p j : (j < es_ranks p * es_devices p * es_banks p)%nat ->
  exists r d b, (r < es_ranks p)%nat /\ (d < es_devices p)%nat /\ (b < es_banks p)%nat /\ j = slot p r d b.
Proof. exact (slot_surjective p j). Qed.
Print Assumptions C27_slot_surjective.
(* A slot depends on the statistics of its bank and of its rank alone, and not on the device. *)
Theorem C27_slot_local p a b ea eb r d k d' :
  calc_energy p a = Exactly ea -> calc_energy p b = Exactly eb -> covers p a -> covers p b ->
  (r < es_ranks p)%nat -> (d < es_devices p)%nat -> (d' < es_devices p)%nat -> (k < es_banks p)%nat ->
  nth_error (ss_bank a) (r * es_banks p + k) = nth_error (ss_bank b) (r * es_banks p + k) -> nth_error (ss_rank a) r = nth_error (ss_rank b) r ->
  exists i, nth_error (en_bank ea) (slot p r d k) = Some i /\ nth_error (en_bank eb) (slot p r d' k) = Some i.
Proof. exact (slot_local p a b ea eb r d k d'). Qed.
Print Assumptions C27_slot_local.
Example C27_slot_case : slot ex_ddr4 1 1 3 = 15%nat /\ slot ex_ddr4 1 0 3 = 11%nat /\
  match calc_energy ex_ddr4 (ex_stats 1) with Exactly e => length (en_bank e) = 16%nat /\ Qle_bool (e_act (nth 15 (en_bank e) ei_zero)) 0 = false | _ => False end.
Proof. split; [reflexivity|]. split; [reflexivity|]. vm_compute. split; reflexivity. Qed.

(* C28: the total is the sum of the parts, each once. *)
Theorem C28_total e :
  en_total e == qsum (fun i => qsum (comp_at i) counted) (en_bank e) + en_shared e + en_pdna e + en_pdnp e + en_sref e + en_dsm e + en_refab e.
Proof. exact (total_is_sum e). Qed.
Print Assumptions C28_total.
Theorem C28_counted_once c : NoDup counted /\ (In c counted <-> c <> CPreRda /\ c <> CPreWra).
Proof. exact (counted_once c). Qed.
Print Assumptions C28_counted_once.
Theorem C28_aggregated e c :
  comp_at (en_aggregated e) c == qsum (fun i => comp_at i c) (en_bank e) + match c with CBgAct => en_shared e | _ => 0 end.
Proof. exact (aggregated_sum e c). Qed.
Print Assumptions C28_aggregated.
Theorem C28_total_from_aggregate e : en_total e == ei_total (en_aggregated e) + en_pdna e + en_pdnp e + en_sref e + en_dsm e + en_refab e.
Proof. exact (total_from_aggregate e). Qed.
Print Assumptions C28_total_from_aggregate.
Example C28_total_case : en_total (mkE [mkEI 1 2 3 4 5 6 7 8 100 200 9 10 11 12 13; ei_zero] 1 1 1 1 1 1) == 97.
Proof. reflexivity. Qed.

(* C41: the background currents used by the formulas are the values of one affine
   function of the number of open banks, which the data sheet and rho determine. *)
Theorem C41_background_unique p w I : well_formed p -> background p w I ->
  I_rho p w == I 0 /\ I_1 p w == I 1 /\ I_2 p w == I 2 /\ I_B p w == I (qnat (es_banks p)) /\ I_BG p w == I (qnat (es_groups p)).
Proof. exact (background_currents p w I). Qed.
Print Assumptions C41_background_unique.
Theorem C41_background_exists p w : well_formed p -> exists I, background p w I.
Proof. exact (background_exists p w). Qed.
Print Assumptions C41_background_exists.
Example C41_background_case : well_formed ex_ddr4 /\ background ex_ddr4 ex_vdd (fun n => (4125#100000) + n * (6875#10000000)).
Proof. split; [exact ex_ddr4_wf|]. split; [intros n; ring|]. split; reflexivity. Qed.

(* C42: the energy computed for each measurement loop of the data sheet is
   voltage times the data sheet's current times the duration of the loop, for
   every rank and device. *)
Theorem C42_measurement_energy p k x r I T : well_formed p -> measurement p k x r I T -> (k <= es_banks p)%nat ->
  exists e, calc_energy p (loop_stats p k x r) = Exactly e /\
    en_total e == qnat (es_ranks p) * qnat (es_devices p) * qsum (fun w => pw_v w * I w * T) (es_domains p).
Proof. exact (measurement_energy p k x r I T). Qed.
Print Assumptions C42_measurement_energy.
Example C42_measurement_case_idd0 : exists x r T, measurement ex_ddr4 1 x r pw_i0 T /\ Qle_bool T 0 = false.
Proof. eexists. eexists. eexists. split; [apply (M_IDD0 ex_ddr4 1000)|vm_compute; reflexivity]. Qed.
Example C42_measurement_case_idd4r : exists x r T, measurement ex_lpddr5 2 x r pw_i4r T /\ Qle_bool T 0 = false.
Proof. eexists. eexists. eexists. split; [apply (M_IDD4R ex_lpddr5 500 2000); vm_compute; reflexivity|vm_compute; reflexivity]. Qed.
Example C42_measurement_case_idd5c : exists x r T, measurement ex_ddr5 2 x r pw_i5s T /\ Qle_bool T 0 = false.
Proof. eexists. eexists. eexists. split; [apply (M_IDD5C ex_ddr5 7); reflexivity|vm_compute; reflexivity]. Qed.
Example C42_measurement_case_idd5p2b : exists x r T, measurement ex_lpddr5 2 x r pw_i5s T /\ Qle_bool T 0 = false.
Proof. eexists. eexists. eexists. split; [apply (M_IDD5P2B ex_lpddr5 7 278); vm_compute; reflexivity|vm_compute; reflexivity]. Qed.
(* The write formula truncates burstLength / dataRate, the read formula does
   not: with a burst that is not a whole number of clock cycles the same loop of
   reads gives the data sheet's power and the loop of writes does not. *)
Theorem C42_write_loop_refuted : exists p m n e,
  well_formed p /\ es_std p = DDR4 /\ qn n * es_tCK p == qnat (banks_in_burst p) * qn m * burst_time p /\
  calc_energy p (loop_stats p (banks_in_burst p) (only (mkCstats 0 0 0 m 0 0 0 0 0 0 0) (mkCycles n 0 0 0 0 0)) (only cs_zero (mkCycles n 0 0 0 0 0))) = Exactly e /\
  ~ en_total e == qnat (es_ranks p) * qnat (es_devices p) * qsum (fun w => pw_v w * pw_i4w w * (qn n * es_tCK p)) (es_domains p).
Proof. exact write_loop_refuted. Qed.
Print Assumptions C42_write_loop_refuted.
