(* Vocabulary for stating facts about interface energies. *)
From Coq Require Import QArith NArith List Bool Arith.
From Verif Require Import Base Command CoreModel Bits StatsModel StatsSpec EnergyModel EnergySpec IfEnergyModel.
Import ListNotations.
Local Open Scope Q_scope.

(* The groups of lines of an interface. *)
Inductive group := CK | WCK | CA | RDQ | WDQ | RDQS | WDQS | RDBI | WDBI.
Inductive side := Controller | Dram.
(* Who drives the lines. *)
Definition driver (g : group) : side := match g with CK | WCK | CA | WDQ | WDQS | WDBI => Controller | RDQ | RDQS | RDBI => Dram end.
(* Which groups a standard has. *)
Definition groups (s : standard) : list group :=
  match s with
  | DDR4 | LPDDR4 => [CK; CA; RDQ; WDQ; RDQS; WDQS; RDBI; WDBI]
  | DDR5 => [CK; CA; RDQ; WDQ; RDQS; WDQS]
  | LPDDR5 => [CK; WCK; CA; RDQ; WDQ; RDQS; RDBI; WDBI]
  | LPDDR6 => [CK; WCK; CA; RDQ; WDQ; RDQS]
  end.
Definition driven_by (s : side) (g : group) : bool := match s, driver g with Controller, Controller | Dram, Dram => true | _, _ => false end.
Definition impedance (p : ispec) (g : group) : line :=
  let i := is_imp p in
  match g with CK => im_ck i | WCK => im_wck i | CA => im_ca i | RDQ => im_rdq i | WDQ => im_wdq i | RDQS => im_rdqs i | WDQS => im_wdqs i | RDBI => im_rdbi i | WDBI => im_wdbi i end.
(* What was counted on the lines of a group. *)
Definition signals (g : group) : list bus_name :=
  match g with
  | CK => [ClockStats] | WCK => [WClockStats] | CA => [CommandBus] | RDQ => [ReadBus; TogglingRead] | WDQ => [WriteBus; TogglingWrite]
  | RDQS => [ReadDQS] | WDQS => [WriteDQS] | RDBI => [ReadDBI] | WDBI => [WriteDBI]
  end.
(* How many beats there are in a clock cycle, and how long one beat lasts. *)
Definition rate (p : ispec) (g : group) : N :=
  match g with
  | CK | WCK => 2
  | CA => match is_std p with LPDDR5 | LPDDR6 => 2 | _ => 1 end
  | RDQS | WDQS => match is_std p with DDR5 => is_dqs_rate p | _ => is_dr p end
  | _ => is_dr p
  end.
Definition beat (p : ispec) (g : group) : Q := match g with WCK => is_tWCK p | _ => is_tCK p end / qn (rate p g).
(* The level at which a terminated line burns power: low against the pull-up of
   DDR, high against the pull-down of LPDDR. *)
Definition burning (s : standard) : bus_field := match s with DDR4 | DDR5 => Zeroes | _ => Ones end.

(* Ohm's law: V^2 / R for as long as the lines of the group are at the burning level. *)
Definition static_of (p : ispec) (st : sim_stats) (g : group) : Q :=
  if ln_term (impedance p g) then
    qsum (fun b => is_vddq p * is_vddq p / ln_R (impedance p g) * (qn (count_at st (OnBus b (burning (is_std p)))) * beat p g)) (signals g)
  else 0.
(* An energy for every rising edge. *)
Definition dynamic_of (p : ispec) (st : sim_stats) (g : group) : Q :=
  qsum (fun b => ln_E (impedance p g) * qn (count_at st (OnBus b ZeroesToOnes))) (signals g).

(* DDR4: every burst that does not follow seamlessly on another has a preamble and a postamble. *)
Definition total_over_ranks (f : cycle_stats -> N) (st : sim_stats) : N := fold_right N.add 0%N (map f (ss_rank st)).
Definition bursts (s : side) (r : cycle_stats) : N :=
  match s with
  | Controller => part_at r (Counter K_writes) + part_at r (Counter K_writeAuto)
  | Dram => part_at r (Counter K_reads) + part_at r (Counter K_readAuto)
  end.
Definition seamless (s : side) (r : cycle_stats) : N := part_at r (Prepos match s with Controller => WriteSeamless | Dram => ReadSeamless end).
Definition strobe (s : side) : group := match s with Controller => WDQS | Dram => RDQS end.
Definition rises (p : ispec) (s : side) : N := match s with Controller => am_wz2o (is_ambles p) | Dram => am_rz2o (is_ambles p) end.
Definition lows (p : ispec) (s : side) : Q := match s with Controller => am_wz (is_ambles p) | Dram => am_rz (is_ambles p) end.
Definition pairs (p : ispec) : N := if (is_width p =? 16)%N then 2 else 1.
Definition with_ambles (s : side) (st : sim_stats) : N := total_over_ranks (bursts s) st - total_over_ranks (seamless s) st.
Definition amble_static (p : ispec) (st : sim_stats) (s : side) : Q :=
  match is_std p with
  | DDR4 => if ln_term (impedance p (strobe s)) then is_vddq p * is_vddq p / ln_R (impedance p (strobe s)) * (qn (pairs p) * lows p s * qn (with_ambles s st) * is_tCK p) else 0
  | _ => 0
  end.
Definition amble_dynamic (p : ispec) (st : sim_stats) (s : side) : Q :=
  match is_std p with
  | DDR4 => if ln_term (impedance p (strobe s)) then ln_E (impedance p (strobe s)) * qn (pairs p * rises p s * with_ambles s st) else 0
  | _ => 0
  end.
Definition static_energy (p : ispec) (st : sim_stats) (s : side) : Q := qsum (static_of p st) (filter (driven_by s) (groups (is_std p))) + amble_static p st s.
Definition dynamic_energy (p : ispec) (st : sim_stats) (s : side) : Q := qsum (dynamic_of p st) (filter (driven_by s) (groups (is_std p))) + amble_dynamic p st s.

(* The divisors are not zero. *)
Definition usable (p : ispec) : Prop :=
  forall g, In g (groups (is_std p)) -> rate p g <> 0%N /\ (ln_term (impedance p g) = true -> ~ ln_R (impedance p g) == 0).
(* No more seamless bursts than bursts, and the counts fit in 64 bits. *)
Definition amble_ok (p : ispec) (st : sim_stats) : Prop :=
  is_std p = DDR4 -> forall s,
  (total_over_ranks (bursts s) st < two64)%N /\ (total_over_ranks (seamless s) st <= total_over_ranks (bursts s) st)%N /\ (pairs p * rises p s * with_ambles s st < two64)%N.
(* DDR5: the data lines are terminated, or have no resistance, or carried no low beat in toggling mode. *)
Definition toggling_ok (p : ispec) (st : sim_stats) : Prop :=
  is_std p = DDR5 ->
  (ln_term (im_rdq (is_imp p)) = true \/ ln_R (im_rdq (is_imp p)) == 0 \/ count_at st (OnBus TogglingRead Zeroes) = 0%N) /\
  (ln_term (im_wdq (is_imp p)) = true \/ ln_R (im_wdq (is_imp p)) == 0 \/ count_at st (OnBus TogglingWrite Zeroes) = 0%N).
Definition statics (e : ienergy) (s : side) : Q := match s with Controller => ie_cstat e | Dram => ie_dstat e end.
Definition dynamics (e : ienergy) (s : side) : Q := match s with Controller => ie_cdyn e | Dram => ie_ddyn e end.
(* Line parameters that make sense. *)
Definition sane_lines (p : ispec) : Prop :=
  0 <= is_tCK p /\ 0 <= is_tWCK p /\ 0 <= am_rz (is_ambles p) /\ 0 <= am_wz (is_ambles p) /\
  forall g, In g (groups (is_std p)) -> 0 <= ln_R (impedance p g) /\ 0 <= ln_E (impedance p g).
