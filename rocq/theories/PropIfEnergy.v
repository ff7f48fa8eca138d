(* C36: interface energy. *)
From Coq Require Import QArith NArith List Bool Arith.
From Verif Require Import Base Command CoreModel Bits StatsModel StatsSpec EnergyModel EnergySpec IfEnergyModel IfEnergySpec IfEnergyProofs IfEnergyMore IfExactSpec IfExactProofs.
Import ListNotations.
Local Open Scope Q_scope.

(* The static energy of each side is V^2/R for the time the terminated lines it
   drives spend at the burning level, and the dynamic energy an amount for every
   rising edge, over every group of lines the standard has (plus, for DDR4, the
   strobe's pre- and postambles).  Missing for the full claim: DDR5 in toggling
   mode with the data lines' termination off (toggling_ok), see the refutation. *)
Theorem C36_closed_form_partial p st : usable p -> amble_ok p st -> toggling_ok p st ->
  exists e, calculateEnergy p st = Exactly e /\ forall s, statics e s == static_energy p st s /\ dynamics e s == dynamic_energy p st s.
Proof. exact (energy_closed p st). Qed.
Print Assumptions C36_closed_form_partial.
Example C36_closed_form_case : forall s, usable (ex_ispec s true) /\ amble_ok (ex_ispec s true) (ex_istats 6) /\ toggling_ok (ex_ispec s true) (ex_istats 6).
Proof. intros s. split; [apply ex_usable|]. split; [apply ex_amble|apply ex_toggling]. Qed.
Example C36_closed_form_value : static_energy (ex_ispec DDR4 true) (ex_istats 6) Dram == (144#100) / 50 * ((2 + 6 + 8 + 1) * (1#4) + 2 * (5#2) * 2 * (1#2)).
Proof. vm_compute. reflexivity. Qed.

Theorem C36_additive_partial p a b : usable p -> no_wrap a b -> amble_ok p a -> amble_ok p b -> amble_ok p (sim_add a b) -> toggling_ok p a -> toggling_ok p b ->
  exists ea eb e, calculateEnergy p a = Exactly ea /\ calculateEnergy p b = Exactly eb /\ calculateEnergy p (sim_add a b) = Exactly e /\
    forall s, statics e s == statics ea s + statics eb s /\ dynamics e s == dynamics ea s + dynamics eb s.
Proof. exact (interface_additive p a b). Qed.
Print Assumptions C36_additive_partial.
Example C36_additive_case : no_wrap (ex_istats 6) (ex_istats 6) /\ forall s, amble_ok (ex_ispec s true) (sim_add (ex_istats 6) (ex_istats 6)).
Proof. split; [exact ex_inowrap|intros s; apply ex_amble2]. Qed.

(* A side all of whose lines are unterminated is charged no static energy. *)
Theorem C36_unterminated_partial p st s : usable p -> amble_ok p st -> toggling_ok p st ->
  (forall g, In g (groups (is_std p)) -> driver g = s -> ln_term (impedance p g) = false) ->
  exists e, calculateEnergy p st = Exactly e /\ statics e s == 0.
Proof. exact (unterminated_free p st s). Qed.
Print Assumptions C36_unterminated_partial.
Example C36_unterminated_case : usable (ex_ispec LPDDR5 false) /\ amble_ok (ex_ispec LPDDR5 false) (ex_istats 6) /\ toggling_ok (ex_ispec LPDDR5 false) (ex_istats 6) /\
  (forall g, In g (groups LPDDR5) -> driver g = Dram -> ln_term (impedance (ex_ispec LPDDR5 false) g) = false).
Proof. split; [apply ex_usable|]. split; [apply ex_amble|]. split; [intros H; discriminate H|]. intros [] _ _; reflexivity. Qed.

(* Non-negative and monotone in what was counted. *)
Theorem C36_monotone_partial p a b : usable p -> sane_lines p -> amble_ok p a -> amble_ok p b -> toggling_ok p a -> toggling_ok p b ->
  (forall n f, (count_at a (OnBus n f) <= count_at b (OnBus n f))%N) -> (forall s, is_std p = DDR4 -> (with_ambles s a <= with_ambles s b)%N) ->
  exists ea eb, calculateEnergy p a = Exactly ea /\ calculateEnergy p b = Exactly eb /\
    forall s, 0 <= statics ea s <= statics eb s /\ 0 <= dynamics ea s <= dynamics eb s.
Proof. exact (interface_monotone p a b). Qed.
Print Assumptions C36_monotone_partial.
Example C36_monotone_case : sane_lines (ex_ispec DDR4 true) /\ (forall n f, (count_at (ex_istats 5) (OnBus n f) <= count_at (ex_istats 6) (OnBus n f))%N) /\
  (forall s, (with_ambles s (ex_istats 5) <= with_ambles s (ex_istats 6))%N).
Proof. split; [apply ex_lines|]. split; [intros [] []; discriminate|intros []; discriminate]. Qed.

(* With every termination switched off DDR5 still charges static energy in
   toggling mode: the resistance is passed where the flag is expected. *)
Theorem C36_ddr5_toggling_refuted : exists p st e, is_std p = DDR5 /\ usable p /\ (forall g, ln_term (impedance p g) = false) /\
  calculateEnergy p st = Exactly e /\ ~ statics e Dram == 0 /\ ~ statics e Controller == 0.
Proof. exact ddr5_toggling. Qed.
Print Assumptions C36_ddr5_toggling_refuted.

(* The whole of it, for any statistics and any parameters without a division by
   zero: what is charged is the above, with the estimates of DDR5 on unterminated
   lines charged as if terminated and the number of DDR4 pre- and postambles taken
   modulo 2^64. *)
Theorem C36_exact p st : computable p ->
  exists e, calculateEnergy p st = Exactly e /\ forall s, statics e s == charged_static p st s /\ dynamics e s == charged_dynamic p st s.
Proof. exact (energy_exact p st). Qed.
Print Assumptions C36_exact.
Example C36_exact_case : computable open_spec /\ stray open_spec (ex_istats 6) Dram == charged_static open_spec (ex_istats 6) Dram /\ ~ stray open_spec (ex_istats 6) Dram == 0.
Proof. exact open_case. Qed.
Example C36_exact_wraps : computable (ex_ispec DDR4 true) /\ amble_bursts Dram more_seamless = 18446744073709551613%N /\ amble_bursts Dram (ex_istats 6) = 2%N.
Proof. exact wraps_case. Qed.
(* There is no finite result exactly when there is a division by zero. *)
Theorem C36_finite p st : ((exists e, calculateEnergy p st = Exactly e) <-> computable p) /\ (calculateEnergy p st = NotFinite <-> ~ computable p).
Proof. exact (energy_finite p st). Qed.
Print Assumptions C36_finite.
Example C36_finite_case : (forall s, computable (ex_ispec s true)) /\ ~ computable shorted_spec.
Proof. exact finite_case. Qed.
(* The distance from Ohm's law: none but the stray part, which is nothing when the
   data lines are terminated or nothing was estimated. *)
Theorem C36_surplus p st s e : computable p -> is_std p <> DDR4 -> calculateEnergy p st = Exactly e ->
  statics e s == static_energy p st s + stray p st s.
Proof. exact (surplus p st s e). Qed.
Print Assumptions C36_surplus.
Theorem C36_no_stray p st s : toggling_ok p st -> stray p st s == 0.
Proof. exact (stray_none p st s). Qed.
Print Assumptions C36_no_stray.
Example C36_surplus_case : computable open_spec /\ is_std open_spec <> DDR4 /\ (exists e, calculateEnergy open_spec (ex_istats 6) = Exactly e) /\
  toggling_ok (ex_ispec DDR5 true) (ex_istats 6).
Proof. split; [apply C36_exact_case|]. split; [discriminate|]. split; [eexists; vm_compute; reflexivity|]. apply C36_closed_form_case. Qed.
