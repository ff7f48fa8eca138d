(* Interface energy.  Models src/DRAMPower/DRAMPower/data/energy.h 59-100 and
   standards/*/interface_calculation_*.cpp, cited below as D4, D5, L4, L5, L6 for
   interface_calculation_{DDR4,DDR5,LPDDR4,LPDDR5,LPDDR6}.cpp.

   Simplification: `double` is an exact rational, as in EnergyModel; a double
   division by zero is the distinct outcome [NotFinite]. *)
From Coq Require Import QArith NArith List Bool Arith.
From Verif Require Import Base Command CoreModel Bits StatsModel EnergyModel.
Import ListNotations.
Local Open Scope Q_scope.

(* X_termination, X_R_eq, X_dyn_E of one group X of lines in
   MemImpedanceSpec (read in D4 46-177; D5 49-113; L4 34-131; L5 52-137; L6 49-117). *)
Record line := mkLine { ln_term : bool; ln_R : Q; ln_E : Q }.
(* MemImpedanceSpec: memspec/MemSpecDDR4.h 146, MemSpecDDR5.h 89, MemSpecLPDDR4.h
   109, MemSpecLPDDR5.h 95, MemSpecLPDDR6.h 88.  Groups a standard does not have
   are never read. *)
Record impedances := mkImp {
  im_ck : line; im_wck : line; im_ca : line; im_rdq : line; im_wdq : line; im_rdqs : line; im_wdqs : line; im_rdbi : line; im_wdbi : line
}.
(* MemSpecDDR4::PrePostamble as far as it is read: memspec/MemSpecDDR4.h 122-134. *)
Record ambles := mkAmbles { am_rz : Q; am_wz : Q; am_rz2o : N; am_wz2o : N }.
(* What the calculations read of a memspec: D4 23-28, 57, 66-69, 106; D5 23-27,
   59, 76; L4 5-10; L5 23-28; L6 22-27.  is_dqs_rate is dataRateSpec.dqsBusRate
   (DDR5); is_width is bitWidth and is_ambles prePostamble (DDR4). *)
Record ispec := mkIspec {
  is_std : standard; is_tCK : Q; is_tWCK : Q; is_vddq : Q; is_dr : N; is_dqs_rate : N; is_width : N; is_imp : impedances; is_ambles : ambles
}.

(* interface_energy_info_t: data/energy.h 59-62, 78-81. *)
Record ienergy := mkIE { ie_cdyn : Q; ie_cstat : Q; ie_ddyn : Q; ie_dstat : Q }.
(* Default initialisers: data/energy.h 61-62. *)
Definition ie_zero : ienergy := mkIE 0 0 0 0.
(* operator+=: data/energy.h 64-68, 87-91. *)
Definition ie_add (a b : ienergy) : ienergy :=
  mkIE (ie_cdyn a + ie_cdyn b) (ie_cstat a + ie_cstat b) (ie_ddyn a + ie_ddyn b) (ie_dstat a + ie_dstat b).
(* total: data/energy.h 83-85. *)
Definition ie_total (a : ienergy) : Q := ie_cdyn a + ie_cstat a + ie_ddyn a + ie_dstat a.

(* calc_static_energy: D4 7-9 and L4 12-14 compute n * (V*V/R) * t; D5, L5 6-8 and
   L6 5-7 compute n * (V*V) * t / R.  D4 takes a double for n, the others a uint64_t. *)
Definition calc_static_energy (std : standard) (n R t V : Q) : calc Q :=
  if Qeq_bool R 0 then NotFinite
  else match std with
  | DDR4 | LPDDR4 => Exactly (n * ((V * V) / R) * t)
  | _ => Exactly (n * (V * V) * t / R)
  end.
(* calc_dynamic_energy: D4 11-13; D5, L5 10-12; L4 16-18; L6 9-11. *)
Definition calc_dynamic_energy (n : N) (E : Q) : Q := qn n * E.
(* t_CK / datarate, double divided by uint64_t: D4, D5, L5 20; L4 26; L6 19. *)
Definition per_beat (t : Q) (rate : N) : calc Q := if (rate =? 0)%N then NotFinite else Exactly (t / qn rate).

(* Sequencing of computations. *)
(* As C++ statements follow each other, e.g. D4 30-51. *)
Definition cbind {A B} (m : calc A) (k : A -> calc B) : calc B :=
  match m with Exactly a => k a | NotFinite => NotFinite | Undefined_calc => Undefined_calc end.
(* Notation for cbind, e.g. D4 30-51. *)
Notation "x <~ m ;; k" := (cbind m (fun x => k)) (at level 61, m at next level, right associativity).

(* calcStaticTermination: D4 15-21 and D5 14-21 charge the zeroes; L4 20-27, L5
   14-21 and L6 13-20 charge the ones. *)
Definition calcStaticTermination (p : ispec) (term : bool) (s : bus_stats) (R t : Q) (rate : N) : calc Q :=
  if term then
    b <~ per_beat t rate ;;
    calc_static_energy (is_std p) (qn (match is_std p with DDR4 | DDR5 => zeroes s | _ => ones s end)) R b (is_vddq p)
  else Exactly 0.

(* The static and the dynamic energy of one group of lines, charged to the
   controller or to the DRAM: the repeated pattern of every calc*Energy function. *)
(* E.g. D4 45-48. *)
Definition by_controller (p : ispec) (l : line) (s : bus_stats) (t : Q) (rate : N) : calc ienergy :=
  x <~ calcStaticTermination p (ln_term l) s (ln_R l) t rate ;;
  Exactly (mkIE (calc_dynamic_energy (z2o s) (ln_E l)) x 0 0).
(* As above: the DRAM's side. *)
(* E.g. D4 53-120, the read side. *)
Definition by_dram (p : ispec) (l : line) (s : bus_stats) (t : Q) (rate : N) : calc ienergy :=
  x <~ calcStaticTermination p (ln_term l) s (ln_R l) t rate ;;
  Exactly (mkIE 0 0 (calc_dynamic_energy (z2o s) (ln_E l)) x).
(* result += f(): data/energy.h 87-91. *)
Definition plus (a b : calc ienergy) : calc ienergy := x <~ a ;; y <~ b ;; Exactly (ie_add x y).

(* calcClockEnergy: D4 42-51; D5 45-54; L4 29-39; L5 48-62; L6 45-59. *)
Definition calcClockEnergy (p : ispec) (st : sim_stats) : calc ienergy :=
  let ck := by_controller p (im_ck (is_imp p)) (ss_clock st) (is_tCK p) 2 in
  match is_std p with
  | LPDDR5 | LPDDR6 => plus ck (by_controller p (im_wck (is_imp p)) (ss_wClock st) (is_tWCK p) 2)
  | _ => ck
  end.

(* NumDQsPairs: D4 56-58. *)
Definition dqs_pairs (p : ispec) : N := if (is_width p =? 16)%N then 2 else 1.
(* The sums over stats.rank_total: D4 60-85. *)
Definition rank_sum (f : cycle_stats -> N) (st : sim_stats) : N := fold_left (fun a r => u64_add a (f r)) (ss_rank st) 0%N.
(* With rank_sum: The sums over stats.rank_total: D4 60-85. *)
Definition readcount (st : sim_stats) : N := rank_sum (fun r => u64_add (cs_reads (cs_counter r)) (cs_readAuto (cs_counter r))) st.
(* With rank_sum: The sums over stats.rank_total: D4 60-85. *)
Definition writecount (st : sim_stats) : N := rank_sum (fun r => u64_add (cs_writes (cs_counter r)) (cs_writeAuto (cs_counter r))) st.
(* The pre- and postamble part of calcDQSEnergy: D4 87-101.  The subtraction and
   the product handed to calc_dynamic_energy are uint64_t. *)
Definition ambleEnergy (p : ispec) (st : sim_stats) : calc ienergy :=
  let w := u64_sub (writecount st) (rank_sum (fun r => pp_ws (cs_prepos r)) st) in
  let r := u64_sub (readcount st) (rank_sum (fun r => pp_rs (cs_prepos r)) st) in
  let a := is_ambles p in
  let half (l : line) (zero : Q) (rise n : N) (mk : Q -> Q -> ienergy) : calc ienergy :=
    if ln_term l then
      s <~ calc_static_energy DDR4 (qn (dqs_pairs p) * zero * qn n) (ln_R l) (is_tCK p) (is_vddq p) ;;
      Exactly (mk (calc_dynamic_energy (u64_mul (u64_mul (dqs_pairs p) rise) n) (ln_E l)) s)
    else Exactly ie_zero in
  plus (half (im_wdqs (is_imp p)) (am_wz a) (am_wz2o a) w (fun d s => mkIE d s 0 0))
       (half (im_rdqs (is_imp p)) (am_rz a) (am_rz2o a) r (fun d s => mkIE 0 0 d s)).
(* calcDQSEnergy: D4 53-117; D5 56-69; L4 41-55; L5 64-74; L6 61-71. *)
Definition calcDQSEnergy (p : ispec) (st : sim_stats) : calc ienergy :=
  let i := is_imp p in
  match is_std p with
  | DDR4 => plus (ambleEnergy p st)
      (plus (by_controller p (im_wdqs i) (ss_writeDQS st) (is_tCK p) (is_dr p)) (by_dram p (im_rdqs i) (ss_readDQS st) (is_tCK p) (is_dr p)))
  | DDR5 => plus (by_dram p (im_rdqs i) (ss_readDQS st) (is_tCK p) (is_dqs_rate p)) (by_controller p (im_wdqs i) (ss_writeDQS st) (is_tCK p) (is_dqs_rate p))
  | LPDDR4 => plus (by_controller p (im_wdqs i) (ss_writeDQS st) (is_tCK p) (is_dr p)) (by_dram p (im_rdqs i) (ss_readDQS st) (is_tCK p) (is_dr p))
  | LPDDR5 | LPDDR6 => by_dram p (im_rdqs i) (ss_readDQS st) (is_tCK p) (is_dr p)
  end.

(* The conversion of the double R_eq to the bool parameter `termination` in D5 76
   and D5 82. *)
Definition as_flag (l : line) : line := mkLine (negb (Qeq_bool (ln_R l) 0)) (ln_R l) (ln_E l).
(* calcDQEnergyTogglingRate: D4 119-136; D5 71-87; L4 86-103; L5 76-93; L6 73-90. *)
Definition calcDQEnergyTogglingRate (p : ispec) (st : sim_stats) : calc ienergy :=
  let i := is_imp p in
  match is_std p with
  | DDR5 => plus (by_dram p (as_flag (im_rdq i)) (ss_togRead st) (is_tCK p) (is_dr p)) (by_controller p (as_flag (im_wdq i)) (ss_togWrite st) (is_tCK p) (is_dr p))
  | _ => plus (by_controller p (im_wdq i) (ss_togWrite st) (is_tCK p) (is_dr p)) (by_dram p (im_rdq i) (ss_togRead st) (is_tCK p) (is_dr p))
  end.
(* calcDQEnergy: D4 138-153; D5 89-105; L4 67-84; L5 95-111; L6 92-108. *)
Definition calcDQEnergy (p : ispec) (st : sim_stats) : calc ienergy :=
  let i := is_imp p in
  plus (by_dram p (im_rdq i) (ss_readBus st) (is_tCK p) (is_dr p)) (by_controller p (im_wdq i) (ss_writeBus st) (is_tCK p) (is_dr p)).
(* calcCAEnergy: D4 155-165; D5 107-116; L4 57-65; L5 113-123; L6 110-120. *)
Definition calcCAEnergy (p : ispec) (st : sim_stats) : calc ienergy :=
  by_controller p (im_ca (is_imp p)) (ss_commandBus st) (is_tCK p) (match is_std p with LPDDR5 | LPDDR6 => 2 | _ => 1 end).
(* calcDBIEnergy: D4 167-182; L4 119-134; L5 125-140. *)
Definition calcDBIEnergy (p : ispec) (st : sim_stats) : calc ienergy :=
  let i := is_imp p in
  plus (by_dram p (im_rdbi i) (ss_readDBI st) (is_tCK p) (is_dr p)) (by_controller p (im_wdbi i) (ss_writeDBI st) (is_tCK p) (is_dr p)).

(* calculateEnergy: D4 30-40; D5 29-43; L4 105-117; L5 30-46; L6 29-43. *)
Definition calculateEnergy (p : ispec) (st : sim_stats) : calc ienergy :=
  let sum l := fold_left plus l (Exactly ie_zero) in
  match is_std p with
  | DDR4 | LPDDR4 =>
      sum [calcClockEnergy p st; calcDQSEnergy p st; calcDQEnergyTogglingRate p st; calcDQEnergy p st; calcCAEnergy p st; calcDBIEnergy p st]
  | DDR5 | LPDDR6 =>
      sum [calcClockEnergy p st; calcDQSEnergy p st; calcCAEnergy p st; plus (calcDQEnergy p st) (calcDQEnergyTogglingRate p st)]
  | LPDDR5 =>
      sum [calcClockEnergy p st; calcDQSEnergy p st; calcCAEnergy p st; plus (calcDQEnergy p st) (calcDQEnergyTogglingRate p st); calcDBIEnergy p st]
  end.

(* dram_base::getTotalEnergy: dram/dram_base.h 78-80. *)
Definition getTotalEnergy (core : calc energy) (iface : calc ienergy) : calc Q :=
  a <~ core ;; b <~ iface ;; Exactly (en_total a + ie_total b).
