(* Other units, other data sheets: how two memories are related whose voltages,
   currents, times, resistances differ by constant factors, or whose supply domains
   are divided differently. *)
From Coq Require Import QArith NArith List Bool Arith.
From Verif Require Import Base Command CoreModel Bits StatsModel StatsSpec EnergyModel EnergySpec IfEnergyModel IfEnergySpec.
Import ListNotations.
Local Open Scope Q_scope.

(* Every current as f gives it, the voltage multiplied by a. *)
Definition with_currents (a : Q) (f : (power -> Q) -> Q) (w : power) : power :=
  mkPower (a * pw_v w) (f pw_i0) (f pw_i2n) (f pw_i3n) (f pw_i2p) (f pw_i3p) (f pw_i4r) (f pw_i4w) (f pw_i5) (f pw_i5s) (f pw_i6) (f pw_i6ds) (f pw_ibeta).
(* The same memory with other supply domains. *)
Definition supplied (p : espec) (l : list power) : espec :=
  mkEspec (es_std p) (es_ranks p) (es_devices p) (es_banks p) (es_groups p) (es_bl p) (es_dr p) (es_tCK p) (es_tWCK p) (es_tRAS p) (es_tRP p) (es_tRFC p)
    (es_tRFCs p) (es_tREFI p) (es_rho p) (es_mbg p) l.
(* The same memory with a clock that is c times as slow. *)
Definition clocked (c : Q) (p : espec) : espec :=
  mkEspec (es_std p) (es_ranks p) (es_devices p) (es_banks p) (es_groups p) (es_bl p) (es_dr p) (c * es_tCK p) (c * es_tWCK p) (es_tRAS p) (es_tRP p) (es_tRFC p)
    (es_tRFCs p) (es_tREFI p) (es_rho p) (es_mbg p) (es_domains p).
(* Voltages in units of 1/a, currents of 1/b, times of 1/c. *)
Definition in_units (a b c : Q) (p : espec) : espec :=
  clocked c (supplied p (map (fun w => with_currents a (fun i => b * i w) w) (es_domains p))).
(* Two data sheets for one voltage, added. *)
Definition added (w v : power) : power := with_currents 1 (fun i => i w + i v) w.

(* Every number of f is k times the number of e. *)
Definition is_multiple (k : Q) (e f : energy) : Prop :=
  forall x, match energy_at e x, energy_at f x with Some q, Some r => r == k * q | None, None => True | _, _ => False end.
(* The same numbers. *)
Definition same_energy (e f : energy) : Prop := is_multiple 1 e f.

(* The interface: voltage times a, resistances times r, times times c, energy of an
   edge times k. *)
Definition line_units (r k : Q) (l : line) : line := mkLine (ln_term l) (r * ln_R l) (k * ln_E l).
Definition lines_units (r k : Q) (i : impedances) : impedances :=
  mkImp (line_units r k (im_ck i)) (line_units r k (im_wck i)) (line_units r k (im_ca i)) (line_units r k (im_rdq i)) (line_units r k (im_wdq i))
    (line_units r k (im_rdqs i)) (line_units r k (im_wdqs i)) (line_units r k (im_rdbi i)) (line_units r k (im_wdbi i)).
Definition interface_units (a r c k : Q) (p : ispec) : ispec :=
  mkIspec (is_std p) (c * is_tCK p) (c * is_tWCK p) (a * is_vddq p) (is_dr p) (is_dqs_rate p) (is_width p) (lines_units r k (is_imp p)) (is_ambles p).
