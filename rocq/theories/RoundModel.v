(* The energy calculations with rounding.  EnergyModel and IfEnergyModel compute
   with exact rationals; here every operation on doubles is an operation of a
   given arithmetic, in the order in which the code performs it.  Core: data/
   energy.cpp and standards/*/core_calculation_*.cpp, cited as D4, D5, L4, L5,
   L6.  Interface: standards/*/interface_calculation_*.cpp, cited as ID4, ID5,
   IL4, IL5, IL6.

   Simplifications: a double is a rational number (its value), so there is no
   overflow to infinity; a division by zero is [NotFinite] as before; no
   operations are contracted into fused ones. *)
From Coq Require Import QArith NArith List Bool Arith.
From Verif Require Import Base Command CoreModel Bits StatsModel EnergyModel IfEnergyModel.
Import ListNotations.
Local Open Scope Q_scope.

(* The operations +, -, *, / on doubles and the conversion of an integer to
   double, as used in D4 9-117, D5 11-130, L4 11-127, L5 12-148, L6 11-131. *)
Record arithmetic := mkArith { r_add : Q -> Q -> Q; r_sub : Q -> Q -> Q; r_mul : Q -> Q -> Q; r_div : Q -> Q -> Q; r_of : N -> Q }.

Section Rounded.
Variable R : arithmetic.
(* The operators of D4 9-117 in the given arithmetic. *)
Local Notation "a [+] b" := (r_add R a b) (at level 50, left associativity).
(* As above: D4 9-117. *)
Local Notation "a [-] b" := (r_sub R a b) (at level 50, left associativity).
(* As above: D4 9-117. *)
Local Notation "a [*] b" := (r_mul R a b) (at level 40, left associativity).
(* As above: D4 9-117. *)
Local Notation "a [/] b" := (r_div R a b) (at level 40, left associativity).

(* energy_info_t::operator+=: data/energy.cpp 50-71; also the `+=` on single
   fields in D4 91-108, D5 102-121, L4 99-118, L5 107-139, L6 103-122 (a field a
   standard does not touch stays zero: it gets zero added). *)
Definition rei_add (a b : energy_info) : energy_info :=
  mkEI (e_act a [+] e_act b) (e_pre a [+] e_pre b) (e_bg_act a [+] e_bg_act b) (e_bg_pre a [+] e_bg_pre b) (e_rd a [+] e_rd b) (e_wr a [+] e_wr b)
    (e_rda a [+] e_rda b) (e_wra a [+] e_wra b) (e_pre_rda a [+] e_pre_rda b) (e_pre_wra a [+] e_pre_wra b) (e_ref_ab a [+] e_ref_ab b)
    (e_ref_pb a [+] e_ref_pb b) (e_ref_sb a [+] e_ref_sb b) (e_ref_2b a [+] e_ref_2b b) (e_ref_db a [+] e_ref_db b).
(* energy_info_t::total: data/energy.cpp 5-26. *)
Definition rei_total (a : energy_info) : Q :=
  e_act a [+] e_pre a [+] e_bg_act a [+] e_bg_pre a [+] e_rd a [+] e_wr a [+] e_rda a [+] e_wra a [+] e_ref_ab a [+] e_ref_pb a [+] e_ref_sb a [+] e_ref_2b a [+] e_ref_db a.
(* energy_t::total: data/energy.cpp 73-84. *)
Definition ren_total (e : energy) : Q :=
  0 [+] (rei_total (fold_left rei_add (en_bank e) ei_zero) [+] en_shared e [+] en_pdna e [+] en_pdnp e [+] en_sref e [+] en_dsm e [+] en_refab e).

(* numberOfBanks, numberOfBankGroups and numberOfDevices as doubles: D4 52, 71,
   112-117; D5 62-63, 125-130; L4 58, 122-127; L5 64, 143-148; L6 60, 126-131. *)
Definition rB (p : espec) : Q := r_of R (N.of_nat (es_banks p)).
(* With rB: D5 63. *)
Definition rBG (p : espec) : Q := r_of R (N.of_nat (es_groups p)).
(* With rB: D4 112-117; D5 125-130; L4 122-127; L5 143-148; L6 126-131. *)
Definition rD (p : espec) : Q := r_of R (N.of_nat (es_devices p)).
(* A number of cycles times tCK: t_RAS, t_RP, t_RFC, ...: D4 44-47, 85-86; D5
   53-57, 96-97; L4 48-53, 93-94; L5 53-59, 101-102; L6 49-55, 97-98. *)
Definition rtime (p : espec) (n : N) : Q := r_of R n [*] es_tCK p.

(* E_BG_pre: D4 9-11; D5 11-13; L4 19-21; L5 20-22; L6 19-21. *)
Definition rE_BG_pre (B VDD IDD2_N T_BG_pre : Q) : Q := (1 [/] B) [*] VDD [*] IDD2_N [*] T_BG_pre.
(* E_BG_act_shared: D4 13-15; D5 15-17; L4 27-29; L5 28-30; L6 27-29. *)
Definition rE_BG_act_shared (VDD I_rho T_BG_act : Q) : Q := VDD [*] I_rho [*] T_BG_act.
(* E_BG_act_star: D4 17-19; D5 19-22; L4 23-25; L5 24-26; L6 23-25. *)
Definition rE_BG_act_star (VDD I_1 I_rho T_BG_act_star : Q) : Q := VDD [*] (I_1 [-] I_rho) [*] T_BG_act_star.
(* E_pre: D4 21-23; D5 24-26; L4 11-13; L5 12-14; L6 11-13.  E_act has the same
   form: D4 25-27; D5 28-30; L4 15-17; L5 16-18; L6 15-17; so has E_ref_pb: L4
   43-45; L5 44-46. *)
Definition rE_times (VDD I J t : Q) (n : N) : Q := VDD [*] (I [-] J) [*] t [*] r_of R n.
(* E_RD with the quotient taken in double: D4 29-31; D5 32-35. *)
Definition rE_RD_double (VDD IDD4_R I_B t_CK : Q) (BL DR : N) (N_RD : N) : Q := VDD [*] (IDD4_R [-] I_B) [*] (r_of R BL [/] r_of R DR) [*] t_CK [*] r_of R N_RD.
(* E_WR (D4 33-35; D5 37-40) and the E_RD and E_WR of LPDDR (L4 31-37; L5 32-38;
   L6 31-37): the quotient is an integer division. *)
Definition rE_RW_int (VDD IDD4 I t : Q) (BL DR : N) (N_RW : N) : Q := VDD [*] (IDD4 [-] I) [*] r_of R (BL / DR) [*] t [*] r_of R N_RW.
(* E_ref_ab: D4 37-39; D5 42-45; L4 39-41; L5 40-42; L6 39-41. *)
Definition rE_ref_ab (B VDD IDD5B I_B tRFC : Q) (N_REF : N) : Q := (1 [/] B) [*] VDD [*] (IDD5B [-] I_B) [*] tRFC [*] r_of R N_REF.
(* E_ref_sb: D5 47-50. *)
Definition rE_ref_sb (VDD IDD5C I_BG tRFCsb BG : Q) (N_SB_REF : N) : Q := VDD [*] (IDD5C [-] I_BG) [*] tRFCsb [*] r_of R N_SB_REF [*] (1 [/] BG).
(* E_ref_p2b: L5 48-50; E_ref_db: L6 43-46. *)
Definition rE_ref_half (VDD IDD5_B I_2 tRFC : Q) (N_REF : N) : Q := (1 # 2) [*] VDD [*] (IDD5_B [-] I_2) [*] tRFC [*] r_of R N_REF.

(* The divisor of I_rho in LPDDR: L4 76-78; L5 83-85; L6 79-81. *)
Definition rI_div (p : espec) : Q := (rB p [*] es_rho p) [+] (1 [-] es_rho p).
(* I_rho: D4 69; D5 81; L4 76-78; L5 83-85; L6 79-81. *)
Definition rI_rho (p : espec) (w : power) : Q :=
  match es_std p with
  | DDR4 | DDR5 => es_rho p [*] (pw_i3n w [-] pw_i2n w) [+] pw_i2n w
  | _ => ((rB p [*] es_rho p) [*] pw_i3n w [+] (1 [-] es_rho p) [*] pw_i2n w) [/] rI_div p
  end.
(* I_theta: D4 70; D5 82; L4 79; L5 88; L6 84. *)
Definition rI_theta (p : espec) (w : power) : Q :=
  (pw_i0 w [*] (rtime p (es_tRP p) [+] rtime p (es_tRAS p)) [-] pw_ibeta w [*] rtime p (es_tRP p)) [*] (1 [/] rtime p (es_tRAS p)).
(* I_1: D4 71; D5 83 (computed; B - 1 is an integer subtraction); L4 66; L5 72; L6
   68 (iDD3NX). *)
Definition rI_1 (p : espec) (w : power) : Q :=
  match es_std p with
  | DDR4 | DDR5 => (1 [/] rB p) [*] (pw_i3n w [+] r_of R (N.of_nat (es_banks p) - 1) [*] rI_rho p w)
  | _ => pw_i3n w
  end.
(* I_B: D4 60; D5 71 (iXX3N); L4 82; L5 86; L6 82 (computed). *)
Definition rI_B (p : espec) (w : power) : Q :=
  match es_std p with
  | DDR4 | DDR5 => pw_i3n w
  | _ => rI_rho p w [+] rB p [*] (rI_1 p w [-] rI_rho p w)
  end.
(* I_BG: D5 84. *)
Definition rI_BG (p : espec) (w : power) : Q := rI_rho p w [+] (rI_1 p w [-] rI_rho p w) [*] rBG p.
(* I_2: L5 87; L6 83. *)
Definition rI_2 (p : espec) (w : power) : Q := rI_1 p w [+] (rI_1 p w [-] rI_rho p w).
(* IDD5PB_B: L4 80-81; L5 89-90; IDD5PDB_B: L6 85-86. *)
Definition rIDD5_B (p : espec) (w : power) : Q :=
  (pw_i5s w [*] (rtime p (es_tREFI p) [/] 8) [-] pw_i2n w [*] (rtime p (es_tREFI p) [/] 8 [-] rtime p (es_tRFCs p))) [*] (1 [/] rtime p (es_tRFCs p)).

(* The divisors are not zero: as finite_domain of EnergyModel (D4 70-71, D5 49,
   82-83, L4 78-81, L5 85-90, L6 81-86), for the rounded divisors. *)
Definition rfinite (p : espec) : bool :=
  negb (Qeq_bool (rB p) 0) && negb (Qeq_bool (rtime p (es_tRAS p)) 0) && negb (Qeq_bool (r_of R (es_dr p)) 0) &&
  match es_std p with
  | DDR4 => true
  | DDR5 => negb (Qeq_bool (rBG p) 0)
  | LPDDR4 | LPDDR5 | LPDDR6 => negb (Qeq_bool (rI_div p) 0) && negb (Qeq_bool (rtime p (es_tRFCs p)) 0)
  end.

(* The body of the loop over the banks: D4 83-109; D5 94-122; L4 91-119; L5
   99-140; L6 95-123. *)
Definition rbank_energy (p : espec) (w : power) (k r : cycle_stats) : energy_info :=
  let c := cs_counter k in
  let V := pw_v w in
  let pre n := rE_times V (pw_ibeta w) (pw_i2n w) (rtime p (es_tRP p)) n in
  let burst (double : bool) (I4 : Q) n :=
    match es_std p with
    | DDR4 | DDR5 => if double then rE_RD_double V I4 (rI_B p w) (es_tCK p) (es_bl p) (es_dr p) n else rE_RW_int V I4 (rI_B p w) (es_tCK p) (es_bl p) (es_dr p) n
    | LPDDR4 => rE_RW_int V I4 (rI_1 p w) (es_tCK p) (es_bl p) (es_dr p) n
    | LPDDR5 => rE_RW_int V I4 (if es_mbg p then rI_2 p w else rI_1 p w) (es_tWCK p) (es_bl p) (es_dr p) n
    | LPDDR6 => rE_RW_int V I4 (rI_2 p w) (es_tWCK p) (es_bl p) (es_dr p) n
    end in
  mkEI (rE_times V (rI_theta p w) (rI_1 p w) (rtime p (es_tRAS p)) (cs_act c)) (pre (cs_pre c))
    (rE_BG_act_star V (rI_1 p w) (rI_rho p w) (rtime p (cy_act (cs_cycles k))))
    (rE_BG_pre (rB p) V (pw_i2n w) (rtime p (cy_pre (cs_cycles r))))
    (burst true (pw_i4r w) (cs_reads c)) (burst false (pw_i4w w) (cs_writes c)) (burst true (pw_i4r w) (cs_readAuto c)) (burst false (pw_i4w w) (cs_writeAuto c))
    (pre (cs_readAuto c)) (pre (cs_writeAuto c))
    (rE_ref_ab (rB p) V (pw_i5 w) (rI_B p w) (rtime p (es_tRFC p)) (cs_refAllBank c))
    match es_std p with LPDDR4 | LPDDR5 => rE_times V (rIDD5_B p w) (rI_1 p w) (rtime p (es_tRFCs p)) (cs_refPerBank c) | _ => 0 end
    match es_std p with DDR5 => rE_ref_sb V (pw_i5s w) (rI_BG p w) (rtime p (es_tRFCs p)) (rBG p) (cs_refSameBank c) | _ => 0 end
    match es_std p with LPDDR5 => rE_ref_half V (rIDD5_B p w) (rI_2 p w) (rtime p (es_tRFCs p)) (cs_refPerTwoBanks c) | _ => 0 end
    match es_std p with LPDDR6 => rE_ref_half V (rIDD5_B p w) (rI_2 p w) (rtime p (es_tRFCs p)) (cs_refDualBanks c) | _ => 0 end.

(* The rank-wide terms: D4 112-117; D5 125-130; L4 122-127; L5 143-148; L6
   126-131. *)
Definition rrank_energy (p : espec) (w : power) (r : cycle_stats) (e : energy) : energy :=
  let y := cs_cycles r in
  let V := pw_v w in
  mkE (en_bank e)
    (en_shared e [+] rE_BG_act_shared V (rI_rho p w) (rtime p (cy_act y)) [*] rD p)
    (en_pdna e [+] V [*] pw_i3p w [*] r_of R (cy_pda y) [*] es_tCK p [*] rD p)
    (en_pdnp e [+] V [*] pw_i2p w [*] r_of R (cy_pdp y) [*] es_tCK p [*] rD p)
    (en_sref e [+] V [*] pw_i6 w [*] r_of R (cy_sref y) [*] es_tCK p [*] rD p)
    (match es_std p with LPDDR5 | LPDDR6 => en_dsm e [+] V [*] pw_i6ds w [*] r_of R (cy_dsm y) [*] es_tCK p [*] rD p | _ => en_dsm e end)
    (en_refab e).

(* `for (size_t b = 0; b < numberOfBanks; ++b)`: D4 83-109; D5 94-122; L4
   91-119; L5 99-140; L6 95-123. *)
Definition rbank_loop (p : espec) (w : power) (st : sim_stats) (i d : nat) (e : energy) : calc energy :=
  fold_left (fun acc b =>
    match acc with
    | Exactly e =>
        match nth_error (ss_bank st) (i * es_banks p + b)%nat, nth_error (ss_rank st) i with
        | Some k, Some r =>
            Exactly (mkE (upd (i * es_devices p * es_banks p + d * es_banks p + b) (fun x => rei_add x (rbank_energy p w k r)) (en_bank e))
              (en_shared e) (en_pdna e) (en_pdnp e) (en_sref e) (en_dsm e) (en_refab e))
        | _, _ => Undefined_calc
        end
    | x => x
    end) (seq 0 (es_banks p)) (Exactly e).
(* `for (size_t d = 0; d < numberOfDevices; ++d)`: D4 76-110; D5 89-123; L4
   87-120; L5 95-141; L6 91-124. *)
Definition rdevice_loop (p : espec) (w : power) (st : sim_stats) (i : nat) (e : energy) : calc energy :=
  fold_left (fun acc d => match acc with Exactly e => rbank_loop p w st i d e | x => x end) (seq 0 (es_devices p)) (Exactly e).
(* `for (size_t i = 0; i < numberOfRanks; ++i)`: D4 75-118; D5 88-131; L4 86-128;
   L5 94-149; L6 90-132. *)
Definition rrank_loop (p : espec) (w : power) (st : sim_stats) (e : energy) : calc energy :=
  fold_left (fun acc i =>
    match acc with
    | Exactly e =>
        match rdevice_loop p w st i e with
        | Exactly e => match nth_error (ss_rank st) i with Some r => Exactly (rrank_energy p w r e) | None => Undefined_calc end
        | x => x
        end
    | x => x
    end) (seq 0 (es_ranks p)) (Exactly e).
(* calcEnergy: D4 41-122; D5 52-135; L4 47-132; L5 52-153; L6 48-136. *)
Definition rcalc_energy (p : espec) (st : sim_stats) : calc energy :=
  if (es_dr p =? 0)%N then Undefined_calc
  else if rfinite p then
    fold_left (fun acc w => match acc with Exactly e => rrank_loop p w st e | x => x end) (es_domains p)
      (Exactly (energy0 (es_banks p * es_ranks p * es_devices p)))
  else NotFinite.

(* ------------------------------------------------------------------ *)
(* The interface                                                       *)
(* ------------------------------------------------------------------ *)
(* operator+=: data/energy.h 64-68, 87-91. *)
Definition rie_add (a b : ienergy) : ienergy :=
  mkIE (ie_cdyn a [+] ie_cdyn b) (ie_cstat a [+] ie_cstat b) (ie_ddyn a [+] ie_ddyn b) (ie_dstat a [+] ie_dstat b).
(* total: data/energy.h 83-85. *)
Definition rie_total (a : ienergy) : Q := ie_cdyn a [+] ie_cstat a [+] ie_ddyn a [+] ie_dstat a.

(* calc_static_energy: ID4 7-9 and IL4 12-14; ID5, IL5 6-8 and IL6 5-7. *)
Definition rcalc_static_energy (std : standard) (n Req t V : Q) : calc Q :=
  if Qeq_bool Req 0 then NotFinite
  else match std with
  | DDR4 | LPDDR4 => Exactly (n [*] ((V [*] V) [/] Req) [*] t)
  | _ => Exactly (n [*] (V [*] V) [*] t [/] Req)
  end.
(* calc_dynamic_energy: ID4 11-13; ID5, IL5 10-12; IL4 16-18; IL6 9-11. *)
Definition rcalc_dynamic_energy (n : N) (E : Q) : Q := r_of R n [*] E.
(* t_CK / datarate: ID4, ID5, IL5 20; IL4 26; IL6 19. *)
Definition rper_beat (t : Q) (rate : N) : calc Q := if Qeq_bool (r_of R rate) 0 then NotFinite else Exactly (t [/] r_of R rate).
(* calcStaticTermination: ID4 15-21; ID5 14-21; IL4 20-27; IL5 14-21; IL6 13-20. *)
Definition rcalcStaticTermination (p : ispec) (term : bool) (s : bus_stats) (Req t : Q) (rate : N) : calc Q :=
  if term then
    b <~ rper_beat t rate ;;
    rcalc_static_energy (is_std p) (r_of R (match is_std p with DDR4 | DDR5 => zeroes s | _ => ones s end)) Req b (is_vddq p)
  else Exactly 0.

(* result.controller.staticEnergy += ...; result.controller.dynamicEnergy += ...
   (ID4 104-107 and the like).  Where the code assigns to a fresh result instead
   (ID4 44-48, 157-162) the sum with zero stands for the assignment. *)
Definition radd_controller (p : ispec) (l : line) (s : bus_stats) (t : Q) (rate : N) (acc : calc ienergy) : calc ienergy :=
  e <~ acc ;; x <~ rcalcStaticTermination p (ln_term l) s (ln_R l) t rate ;;
  Exactly (mkIE (ie_cdyn e [+] rcalc_dynamic_energy (z2o s) (ln_E l)) (ie_cstat e [+] x) (ie_ddyn e) (ie_dstat e)).
(* result.dram.staticEnergy += ...; result.dram.dynamicEnergy += ... (ID4 110-114
   and the like). *)
Definition radd_dram (p : ispec) (l : line) (s : bus_stats) (t : Q) (rate : N) (acc : calc ienergy) : calc ienergy :=
  e <~ acc ;; x <~ rcalcStaticTermination p (ln_term l) s (ln_R l) t rate ;;
  Exactly (mkIE (ie_cdyn e) (ie_cstat e) (ie_ddyn e [+] rcalc_dynamic_energy (z2o s) (ln_E l)) (ie_dstat e [+] x)).
(* result += f(): data/energy.h 87-91. *)
Definition rplus (a b : calc ienergy) : calc ienergy := x <~ a ;; y <~ b ;; Exactly (rie_add x y).
(* A fresh result: data/energy.h 61-62; e.g. ID4 43, 54. *)
Definition fresh : calc ienergy := Exactly ie_zero.

(* calcClockEnergy: ID4 42-51; ID5 45-54; IL4 29-39; IL5 48-62; IL6 45-59. *)
Definition rcalcClockEnergy (p : ispec) (st : sim_stats) : calc ienergy :=
  let ck := radd_controller p (im_ck (is_imp p)) (ss_clock st) (is_tCK p) 2 fresh in
  match is_std p with
  | LPDDR5 | LPDDR6 => radd_controller p (im_wck (is_imp p)) (ss_wClock st) (is_tWCK p) 2 ck
  | _ => ck
  end.
(* The pre- and postamble part of calcDQSEnergy, write side: ID4 87-94. *)
Definition ramble_write (p : ispec) (st : sim_stats) (acc : calc ienergy) : calc ienergy :=
  let n := u64_sub (writecount st) (rank_sum (fun r => pp_ws (cs_prepos r)) st) in
  let l := im_wdqs (is_imp p) in
  if ln_term l then
    e <~ acc ;; s <~ rcalc_static_energy DDR4 (r_of R (dqs_pairs p) [*] am_wz (is_ambles p) [*] r_of R n) (ln_R l) (is_tCK p) (is_vddq p) ;;
    Exactly (mkIE (ie_cdyn e [+] rcalc_dynamic_energy (u64_mul (u64_mul (dqs_pairs p) (am_wz2o (is_ambles p))) n) (ln_E l)) (ie_cstat e [+] s) (ie_ddyn e) (ie_dstat e))
  else acc.
(* The read side: ID4 95-101. *)
Definition ramble_read (p : ispec) (st : sim_stats) (acc : calc ienergy) : calc ienergy :=
  let n := u64_sub (readcount st) (rank_sum (fun r => pp_rs (cs_prepos r)) st) in
  let l := im_rdqs (is_imp p) in
  if ln_term l then
    e <~ acc ;; s <~ rcalc_static_energy DDR4 (r_of R (dqs_pairs p) [*] am_rz (is_ambles p) [*] r_of R n) (ln_R l) (is_tCK p) (is_vddq p) ;;
    Exactly (mkIE (ie_cdyn e) (ie_cstat e) (ie_ddyn e [+] rcalc_dynamic_energy (u64_mul (u64_mul (dqs_pairs p) (am_rz2o (is_ambles p))) n) (ln_E l)) (ie_dstat e [+] s))
  else acc.
(* calcDQSEnergy: ID4 53-117; ID5 56-69; IL4 41-55; IL5 64-74; IL6 61-71. *)
Definition rcalcDQSEnergy (p : ispec) (st : sim_stats) : calc ienergy :=
  let i := is_imp p in
  match is_std p with
  | DDR4 => radd_dram p (im_rdqs i) (ss_readDQS st) (is_tCK p) (is_dr p)
      (radd_controller p (im_wdqs i) (ss_writeDQS st) (is_tCK p) (is_dr p) (ramble_read p st (ramble_write p st fresh)))
  | DDR5 => radd_controller p (im_wdqs i) (ss_writeDQS st) (is_tCK p) (is_dqs_rate p) (radd_dram p (im_rdqs i) (ss_readDQS st) (is_tCK p) (is_dqs_rate p) fresh)
  | LPDDR4 => radd_dram p (im_rdqs i) (ss_readDQS st) (is_tCK p) (is_dr p) (radd_controller p (im_wdqs i) (ss_writeDQS st) (is_tCK p) (is_dr p) fresh)
  | LPDDR5 | LPDDR6 => radd_dram p (im_rdqs i) (ss_readDQS st) (is_tCK p) (is_dr p) fresh
  end.
(* calcDQEnergyTogglingRate: ID4 119-136; ID5 71-87; IL4 86-103; IL5 76-93; IL6 73-90. *)
Definition rcalcDQEnergyTogglingRate (p : ispec) (st : sim_stats) : calc ienergy :=
  let i := is_imp p in
  match is_std p with
  | DDR5 => radd_controller p (as_flag (im_wdq i)) (ss_togWrite st) (is_tCK p) (is_dr p) (radd_dram p (as_flag (im_rdq i)) (ss_togRead st) (is_tCK p) (is_dr p) fresh)
  | _ => radd_dram p (im_rdq i) (ss_togRead st) (is_tCK p) (is_dr p) (radd_controller p (im_wdq i) (ss_togWrite st) (is_tCK p) (is_dr p) fresh)
  end.
(* calcDQEnergy: ID4 138-153; ID5 89-105; IL4 67-84; IL5 95-111; IL6 92-108.  The
   two sides write to different fields, so their order does not matter. *)
Definition rcalcDQEnergy (p : ispec) (st : sim_stats) : calc ienergy :=
  let i := is_imp p in
  radd_controller p (im_wdq i) (ss_writeBus st) (is_tCK p) (is_dr p) (radd_dram p (im_rdq i) (ss_readBus st) (is_tCK p) (is_dr p) fresh).
(* calcCAEnergy: ID4 155-165; ID5 107-116; IL4 57-65; IL5 113-123; IL6 110-120. *)
Definition rcalcCAEnergy (p : ispec) (st : sim_stats) : calc ienergy :=
  radd_controller p (im_ca (is_imp p)) (ss_commandBus st) (is_tCK p) (match is_std p with LPDDR5 | LPDDR6 => 2 | _ => 1 end) fresh.
(* calcDBIEnergy: ID4 167-182; IL4 119-134; IL5 125-140. *)
Definition rcalcDBIEnergy (p : ispec) (st : sim_stats) : calc ienergy :=
  let i := is_imp p in
  radd_controller p (im_wdbi i) (ss_writeDBI st) (is_tCK p) (is_dr p) (radd_dram p (im_rdbi i) (ss_readDBI st) (is_tCK p) (is_dr p) fresh).

(* calculateEnergy: ID4 30-40; ID5 29-43; IL4 105-117; IL5 30-46; IL6 29-43. *)
Definition rcalculateEnergy (p : ispec) (st : sim_stats) : calc ienergy :=
  let sum l := fold_left rplus l fresh in
  match is_std p with
  | DDR4 | LPDDR4 =>
      sum [rcalcClockEnergy p st; rcalcDQSEnergy p st; rcalcDQEnergyTogglingRate p st; rcalcDQEnergy p st; rcalcCAEnergy p st; rcalcDBIEnergy p st]
  | DDR5 | LPDDR6 =>
      sum [rcalcClockEnergy p st; rcalcDQSEnergy p st; rcalcCAEnergy p st; rplus (rcalcDQEnergy p st) (rcalcDQEnergyTogglingRate p st)]
  | LPDDR5 =>
      sum [rcalcClockEnergy p st; rcalcDQSEnergy p st; rcalcCAEnergy p st; rplus (rcalcDQEnergy p st) (rcalcDQEnergyTogglingRate p st); rcalcDBIEnergy p st]
  end.

(* dram_base::getTotalEnergy: dram/dram_base.h 78-80. *)
Definition rgetTotalEnergy (core : calc energy) (iface : calc ienergy) : calc Q :=
  a <~ core ;; b <~ iface ;; Exactly (ren_total a [+] rie_total b).
End Rounded.
