(* C55: the energies are calculated in double precision.  Every operation rounds,
   and the total differs from the energy calculated with exact numbers by no more
   than a number of roundings times the rounding error of one operation, times
   the energy that results when everything subtracted is added instead.  The model
   of an arithmetic, the sizes and the number of roundings are those of RoundSpec.v. *)
From Coq Require Import NArith ZArith QArith Qabs List Bool.
From Verif Require Import Base Command CoreModel StatsModel EnergyModel EnergySpec EnergyExamples IfEnergyModel IfEnergySpec IfEnergyMore RoundModel RoundSpec RoundDouble RoundTop.
Import ListNotations.
Local Open Scope Q_scope.

Theorem C55_core : forall R u, standard_model R u -> 0 <= u -> forall p st e, nonnegative p -> 2 * qnat (roundings p) * u <= 1 -> calc_energy p st = Exactly e ->
  exists e', rcalc_energy R p st = Exactly e' /\ Qabs (ren_total R e' - en_total e) <= 2 * qnat (roundings p) * u * size_of_energy p st.
Proof. exact core_rounding. Qed.
Print Assumptions C55_core.
(* Two ranks of two devices with four banks: 48 + 2 * 3 + 4 * 2 * 2 roundings. *)
Example C55_core_case : nonnegative ex_ddr4 /\ nonnegative ex_lpddr5 /\ standard_model double_arithmetic u53 /\ roundings ex_ddr4 = 70%nat /\ 2 * qnat (roundings ex_ddr4) * u53 <= 1 /\
  exists e, calc_energy ex_ddr4 (ex_stats 5) = Exactly e.
Proof.
  destruct ex_nonnegative as [A B]. split; [exact A|]. split; [exact B|]. split; [exact double_standard|]. split; [reflexivity|]. split; [discriminate|exact (ex_core_value 5)].
Qed.

(* Nothing is subtracted for the interface, so the error is relative to the
   energy itself. *)
Theorem C55_interface : forall R u, standard_model R u -> 0 <= u -> forall p st e, sane_lines p -> 48 * u <= 1 -> calculateEnergy p st = Exactly e ->
  exists e', rcalculateEnergy R p st = Exactly e' /\
    Qabs (ie_cdyn e' - ie_cdyn e) <= 42 * u * ie_cdyn e /\ Qabs (ie_cstat e' - ie_cstat e) <= 42 * u * ie_cstat e /\
    Qabs (ie_ddyn e' - ie_ddyn e) <= 42 * u * ie_ddyn e /\ Qabs (ie_dstat e' - ie_dstat e) <= 42 * u * ie_dstat e /\
    Qabs (rie_total R e' - ie_total e) <= 48 * u * ie_total e.
Proof. exact interface_rounding. Qed.
Print Assumptions C55_interface.
Example C55_interface_case : 48 * u53 <= 1 /\ forall s, sane_lines (ex_ispec s true) /\ exists e, calculateEnergy (ex_ispec s true) (ex_istats 6) = Exactly e.
Proof. split; [discriminate|]. intros s. split; [exact (ex_lines s true)|exact (ex_iface_value s)]. Qed.

Theorem C55_total : forall R u, standard_model R u -> 0 <= u -> forall p q st c si i t, nonnegative p -> sane_lines q -> 2 * qnat (roundings p + 1) * u <= 1 ->
  calc_energy p st = Exactly c -> calculateEnergy q si = Exactly i -> getTotalEnergy (calc_energy p st) (calculateEnergy q si) = Exactly t ->
  exists t', rgetTotalEnergy R (rcalc_energy R p st) (rcalculateEnergy R q si) = Exactly t' /\
    Qabs (t' - t) <= 2 * qnat (roundings p + 1) * u * (size_of_energy p st + ie_total i).
Proof. exact total_rounding. Qed.
Print Assumptions C55_total.
Example C55_total_case : exists c i t, calc_energy ex_ddr4 (ex_stats 5) = Exactly c /\ calculateEnergy (ex_ispec DDR4 true) (ex_istats 6) = Exactly i /\
  getTotalEnergy (calc_energy ex_ddr4 (ex_stats 5)) (calculateEnergy (ex_ispec DDR4 true) (ex_istats 6)) = Exactly t.
Proof.
  destruct (ex_core_value 5) as [c C]. destruct (ex_iface_value DDR4) as [i I]. exists c, i, (en_total c + ie_total i). rewrite C, I. repeat split.
Qed.

(* Double precision: rounding to 53 significant bits, to a nearest number with
   53 significant bits, meets the requirement with u = 2^-53. *)
Theorem C55_doubles : standard_model double_arithmetic u53.
Proof. exact double_standard. Qed.
Print Assumptions C55_doubles.
Theorem C55_53_bits : forall q, has_53_bits (round53 q).
Proof. exact double_format. Qed.
Print Assumptions C55_53_bits.
Theorem C55_nearest : forall q x, has_53_bits x -> Qabs (round53 q - q) <= Qabs (x - q).
Proof. exact double_nearest. Qed.
Print Assumptions C55_nearest.
(* 0.1 as a double; 2^53 + 1 and 2^53 + 3 lie in the middle of two doubles and go
   to the even one. *)
Example C55_nearest_case : Qeq_bool (round53 (1 # 10)) (3602879701896397 # 36028797018963968) = true /\
  Qeq_bool (round53 (9007199254740993 # 1)) (9007199254740992 # 1) = true /\ Qeq_bool (round53 (9007199254740995 # 1)) (9007199254740996 # 1) = true.
Proof. vm_compute. repeat split. Qed.

Theorem C55_core_in_doubles : forall p st e, nonnegative p -> (N.of_nat (roundings p) <= 2 ^ 52)%N -> calc_energy p st = Exactly e ->
  exists e', rcalc_energy double_arithmetic p st = Exactly e' /\
    Qabs (ren_total double_arithmetic e' - en_total e) <= qnat (roundings p) / inject_Z (2 ^ 52) * size_of_energy p st.
Proof. exact core_in_doubles. Qed.
Print Assumptions C55_core_in_doubles.
Theorem C55_total_in_doubles : forall p q st c si i t, nonnegative p -> sane_lines q -> (N.of_nat (roundings p) < 2 ^ 52)%N ->
  calc_energy p st = Exactly c -> calculateEnergy q si = Exactly i -> getTotalEnergy (calc_energy p st) (calculateEnergy q si) = Exactly t ->
  exists t', rgetTotalEnergy double_arithmetic (rcalc_energy double_arithmetic p st) (rcalculateEnergy double_arithmetic q si) = Exactly t' /\
    Qabs (t' - t) <= (qnat (roundings p) + 1) / inject_Z (2 ^ 52) * (size_of_energy p st + ie_total i).
Proof. exact total_in_doubles. Qed.
Print Assumptions C55_total_in_doubles.
Example C55_total_in_doubles_case : (N.of_nat (roundings ex_ddr4) < 2 ^ 52)%N /\ (N.of_nat (roundings ex_lpddr5) < 2 ^ 52)%N.
Proof. split; reflexivity. Qed.

(* Without rounding the calculation gives the exact energies. *)
Theorem C55_exactly : forall p st e, nonnegative p -> calc_energy p st = Exactly e ->
  exists e', rcalc_energy exact_arithmetic p st = Exactly e' /\ ren_total exact_arithmetic e' == en_total e.
Proof. exact core_exactly. Qed.
Print Assumptions C55_exactly.
Theorem C55_interface_exactly : forall p st e, sane_lines p -> calculateEnergy p st = Exactly e -> exists e', rcalculateEnergy exact_arithmetic p st = Exactly e' /\
  ie_cdyn e' == ie_cdyn e /\ ie_cstat e' == ie_cstat e /\ ie_ddyn e' == ie_ddyn e /\ ie_dstat e' == ie_dstat e.
Proof. exact interface_exactly. Qed.
Print Assumptions C55_interface_exactly.
Example C55_exactly_case : nonnegative ex_ddr4 /\ (exists e, calc_energy ex_ddr4 (ex_stats 5) = Exactly e) /\
  sane_lines (ex_ispec DDR4 true) /\ exists e, calculateEnergy (ex_ispec DDR4 true) (ex_istats 6) = Exactly e.
Proof.
  split; [apply C55_core_case|]. destruct C55_total_case as (c & i & _ & C & I & _). split; [exists c; exact C|]. split; [apply C55_interface_case|]. exists i; exact I.
Qed.
