(* C66: energies in other units, with other supply domains, with other currents. *)
From Coq Require Import QArith NArith List Bool Arith Permutation.
From Verif Require Import Base Command CoreModel Bits StatsModel StatsSpec EnergyModel EnergySpec EnergyProofs EnergyExamples IfEnergyModel IfEnergySpec IfEnergyMore IfExactSpec IfExactProofs
  ScaleSpec ScaleProofs.
Import ListNotations.
Local Open Scope Q_scope.

(* Voltages times a, currents times b, clock periods times c: every energy times a b c. *)
Theorem C66_core_units p st a b c : EnergySpec.well_formed p -> covers p st -> ~ c == 0 ->
  exists e e', calc_energy p st = Exactly e /\ calc_energy (in_units a b c p) st = Exactly e' /\ is_multiple (a * b * c) e e' /\ en_total e' == a * b * c * en_total e.
Proof. exact (core_units p st a b c). Qed.
Print Assumptions C66_core_units.
Example C66_core_units_case : EnergySpec.well_formed EnergyExamples.ex_ddr4 /\ covers EnergyExamples.ex_ddr4 (ex_stats 1) /\
  es_tCK (in_units 1 1 (1 # 2) EnergyExamples.ex_ddr4) == 833 # 2000 /\ map pw_i0 (es_domains (in_units 1 1000 1 EnergyExamples.ex_ddr4)) = [1000 * (56 # 1000); 1000 * (4 # 1000)].
Proof. split; [exact ex_ddr4_wf|]. split; [apply ex_covers|]. split; reflexivity. Qed.

(* The energies of the supply domains add up, in any order. *)
Theorem C66_domains_add p l m st : EnergySpec.well_formed p -> covers p st ->
  exists el em e, calc_energy (supplied p l) st = Exactly el /\ calc_energy (supplied p m) st = Exactly em /\ calc_energy (supplied p (l ++ m)) st = Exactly e /\ is_sum el em e.
Proof. exact (domains_add p l m st). Qed.
Print Assumptions C66_domains_add.
Example C66_domains_add_case : EnergyExamples.ex_ddr4 = supplied EnergyExamples.ex_ddr4 ([ex_vdd] ++ [ex_vpp]).
Proof. reflexivity. Qed.
Theorem C66_domains_order p l m st : EnergySpec.well_formed p -> covers p st -> Permutation l m ->
  exists e f, calc_energy (supplied p l) st = Exactly e /\ calc_energy (supplied p m) st = Exactly f /\ same_energy e f.
Proof. exact (domains_order p l m st). Qed.
Print Assumptions C66_domains_order.
Example C66_domains_order_case : Permutation [ex_vdd; ex_vpp] [ex_vpp; ex_vdd] /\ [ex_vdd; ex_vpp] <> [ex_vpp; ex_vdd].
Proof. split; [constructor|discriminate]. Qed.

(* Currents superpose: the energy with the sum of two data sheets is the sum of the energies. *)
Theorem C66_currents_add p (l : list (power * power)) st : EnergySpec.well_formed p -> covers p st -> (forall x, In x l -> pw_v (fst x) == pw_v (snd x)) ->
  exists e1 e2 e, calc_energy (supplied p (map fst l)) st = Exactly e1 /\ calc_energy (supplied p (map snd l)) st = Exactly e2 /\
    calc_energy (supplied p (map (fun x => added (fst x) (snd x)) l)) st = Exactly e /\ is_sum e1 e2 e.
Proof. exact (currents_add p l st). Qed.
Print Assumptions C66_currents_add.
Example C66_currents_add_case : pw_v ex_vdd == pw_v (with_currents 1 (fun _ => 1 # 1000) ex_vdd) /\
  pw_i3n (added ex_vdd (with_currents 1 (fun _ => 1 # 1000) ex_vdd)) == 45 # 1000.
Proof. split; reflexivity. Qed.

(* The interface: V^2 t / R for the static energies, the energy of an edge for the dynamic ones. *)
Theorem C66_interface_units a r c k p st : ~ r == 0 ->
  (computable (interface_units a r c k p) <-> computable p) /\
  (computable p -> exists e e', calculateEnergy p st = Exactly e /\ calculateEnergy (interface_units a r c k p) st = Exactly e' /\
     forall s, statics e' s == a * a * c / r * statics e s /\ dynamics e' s == k * dynamics e s).
Proof. exact (interface_scaling a r c k p st). Qed.
Print Assumptions C66_interface_units.
Example C66_interface_units_case s : computable (ex_ispec s true) /\ ~ (1000 # 1) == 0.
Proof. split; [apply finite_case|discriminate]. Qed.
