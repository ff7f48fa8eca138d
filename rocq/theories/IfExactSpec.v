(* What an interface calculation charges for any statistics, with the two places
   where the code departs from Ohm's law and from counting bursts. *)
From Coq Require Import QArith NArith ZArith List Bool Arith.
From Verif Require Import Base Command CoreModel Bits StatsModel StatsSpec EnergyModel EnergySpec IfEnergyModel IfEnergySpec.
Import ListNotations.
Local Open Scope Q_scope.

(* Bursts less seamless bursts, as a 64-bit difference: it wraps when there are more
   seamless bursts than bursts. *)
Definition amble_bursts (s : side) (st : sim_stats) : N :=
  Z.to_N ((Z.of_N (total_over_ranks (bursts s) st) - Z.of_N (total_over_ranks (seamless s) st)) mod 2 ^ 64).
Definition charged_amble_static (p : ispec) (st : sim_stats) (s : side) : Q :=
  match is_std p with
  | DDR4 => if ln_term (impedance p (strobe s)) then is_vddq p * is_vddq p / ln_R (impedance p (strobe s)) * (qn (pairs p) * lows p s * qn (amble_bursts s st) * is_tCK p) else 0
  | _ => 0
  end.
Definition charged_amble_dynamic (p : ispec) (st : sim_stats) (s : side) : Q :=
  match is_std p with
  | DDR4 => if ln_term (impedance p (strobe s)) then ln_E (impedance p (strobe s)) * qn ((pairs p * rises p s * amble_bursts s st) mod 2 ^ 64) else 0
  | _ => 0
  end.
(* DDR5 in toggling mode: a data line without termination is charged as if it had
   one, unless its resistance is zero. *)
Definition data_lines (s : side) : group := match s with Controller => WDQ | Dram => RDQ end.
Definition estimate (s : side) : bus_name := match s with Controller => TogglingWrite | Dram => TogglingRead end.
Definition stray (p : ispec) (st : sim_stats) (s : side) : Q :=
  match is_std p with
  | DDR5 => let l := impedance p (data_lines s) in
            if ln_term l || Qeq_bool (ln_R l) 0 then 0
            else is_vddq p * is_vddq p / ln_R l * (qn (count_at st (OnBus (estimate s) Zeroes)) * beat p (data_lines s))
  | _ => 0
  end.
Definition charged_static (p : ispec) (st : sim_stats) (s : side) : Q :=
  qsum (static_of p st) (filter (driven_by s) (groups (is_std p))) + charged_amble_static p st s + stray p st s.
Definition charged_dynamic (p : ispec) (st : sim_stats) (s : side) : Q :=
  qsum (dynamic_of p st) (filter (driven_by s) (groups (is_std p))) + charged_amble_dynamic p st s.

(* No division by zero: the terminated lines have a resistance and a rate; for DDR5
   that holds of data lines with a resistance as well, terminated or not. *)
Definition divides (p : ispec) (g : group) : bool :=
  ln_term (impedance p g) ||
  match is_std p, g with DDR5, RDQ | DDR5, WDQ => negb (Qeq_bool (ln_R (impedance p g)) 0) | _, _ => false end.
Definition computable (p : ispec) : Prop :=
  forall g, In g (groups (is_std p)) -> divides p g = true -> rate p g <> 0%N /\ ~ ln_R (impedance p g) == 0.
