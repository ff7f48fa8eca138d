(* Core energy.  Models src/DRAMPower/DRAMPower/data/energy.{h,cpp} and
   standards/*/core_calculation_*.cpp, cited below as D4, D5, L4, L5, L6 for
   core_calculation_{DDR4,DDR5,LPDDR4,LPDDR5,LPDDR6}.cpp.

   Simplification: `double` is an exact rational, so rounding, overflow to
   infinity and the 53-bit limit of the uint64_t -> double conversion are not
   modelled.  A double division by zero (which yields inf or NaN) is the
   distinct outcome [NotFinite]. *)
From Coq Require Import QArith NArith List Bool Arith.
From Verif Require Import Base Command CoreModel Bits StatsModel.
Import ListNotations.
Local Open Scope Q_scope.

(* A computation on doubles and vectors: an exact value, a result that is not a
   finite number, or undefined behaviour (integer division by zero, vector index
   out of range). *)
(* The divisions of D4 52-111 and the vectors of data/energy.h 60-104. *)
Inductive calc (A : Type) := Exactly (a : A) | NotFinite | Undefined_calc.
Arguments Exactly {A} a.
Arguments NotFinite {A}.
Arguments Undefined_calc {A}.

(* Conversion of uint64_t to double: exact (no rounding). *)
Definition qn (n : N) : Q := inject_Z (Z.of_N n).

(* energy_info_t: data/energy.h 10-33. *)
Record energy_info := mkEI {
  e_act : Q; e_pre : Q; e_bg_act : Q; e_bg_pre : Q; e_rd : Q; e_wr : Q; e_rda : Q; e_wra : Q;
  e_pre_rda : Q; e_pre_wra : Q; e_ref_ab : Q; e_ref_pb : Q; e_ref_sb : Q; e_ref_2b : Q; e_ref_db : Q
}.
(* Default initialisers: data/energy.h 12-28. *)
Definition ei_zero : energy_info := mkEI 0 0 0 0 0 0 0 0 0 0 0 0 0 0 0.
(* energy_info_t::operator+=: data/energy.cpp 50-71. *)
Definition ei_add (a b : energy_info) : energy_info :=
  mkEI (e_act a + e_act b) (e_pre a + e_pre b) (e_bg_act a + e_bg_act b) (e_bg_pre a + e_bg_pre b) (e_rd a + e_rd b) (e_wr a + e_wr b)
    (e_rda a + e_rda b) (e_wra a + e_wra b) (e_pre_rda a + e_pre_rda b) (e_pre_wra a + e_pre_wra b) (e_ref_ab a + e_ref_ab b)
    (e_ref_pb a + e_ref_pb b) (e_ref_sb a + e_ref_sb b) (e_ref_2b a + e_ref_2b b) (e_ref_db a + e_ref_db b).
(* energy_info_t::total: data/energy.cpp 5-26 (E_pre_RDA and E_pre_WRA are
   commented out there). *)
Definition ei_total (a : energy_info) : Q :=
  e_act a + e_pre a + e_bg_act a + e_bg_pre a + e_rd a + e_wr a + e_rda a + e_wra a + e_ref_ab a + e_ref_pb a + e_ref_sb a + e_ref_2b a + e_ref_db a.

(* energy_t: data/energy.h 35-57. *)
Record energy := mkE {
  en_bank : list energy_info; en_shared : Q; en_pdna : Q; en_pdnp : Q; en_sref : Q; en_dsm : Q; en_refab : Q
}.
(* energy_t(std::size_t num_banks): data/energy.h 54. *)
Definition energy0 (n : nat) : energy := mkE (repeat ei_zero n) 0 0 0 0 0 0.
(* energy_t::total: data/energy.cpp 73-84. *)
Definition en_total (e : energy) : Q :=
  0 + (ei_total (fold_left ei_add (en_bank e) ei_zero) + en_shared e + en_pdna e + en_pdnp e + en_sref e + en_dsm e + en_refab e).
(* energy_t::aggregated_bank_energy: data/energy.cpp 116-126. *)
Definition en_aggregated (e : energy) : energy_info :=
  let t := fold_left ei_add (en_bank e) ei_zero in
  mkEI (e_act t) (e_pre t) (e_bg_act t + en_shared e) (e_bg_pre t) (e_rd t) (e_wr t) (e_rda t) (e_wra t)
    (e_pre_rda t) (e_pre_wra t) (e_ref_ab t) (e_ref_pb t) (e_ref_sb t) (e_ref_2b t) (e_ref_db t).

(* One entry of MemSpec*::memPowerSpec: memspec/MemSpecDDR4.h 99-112,
   MemSpecDDR5.h 60-74, MemSpecLPDDR4.h 62-76, MemSpecLPDDR5.h 72-87,
   MemSpecLPDDR6.h 65-80.  pw_i5s is the current of the smaller refresh:
   iXX5C (DDR5), iDD5PBX (LPDDR4, LPDDR5), iDD5PDBX (LPDDR6). *)
Record power := mkPower {
  pw_v : Q; pw_i0 : Q; pw_i2n : Q; pw_i3n : Q; pw_i2p : Q; pw_i3p : Q; pw_i4r : Q; pw_i4w : Q; pw_i5 : Q; pw_i5s : Q; pw_i6 : Q; pw_i6ds : Q; pw_ibeta : Q
}.
(* What the calculations read of a memspec: MemSpec.h 59-75 and the MemTimingSpec
   and BankWiseParams of memspec/MemSpec*.h.  es_tRFCs is tRFCsb (DDR5), tRFCPB
   (LPDDR4, LPDDR5) or tRFCDB (LPDDR6); es_mbg is `bank_arch == MBG` (LPDDR5).
   The counts are natural numbers: a vector of numberOfBanks * numberOfRanks *
   numberOfDevices elements has to fit in memory, so the index arithmetic does
   not wrap.  es_domains has one entry per voltage domain in the order of the
   `for (auto vd : {...})` loops (VDD, VPP | VDD1, VDD2 | three domains). *)
Record espec := mkEspec {
  es_std : standard; es_ranks : nat; es_devices : nat; es_banks : nat; es_groups : nat; es_bl : N; es_dr : N;
  es_tCK : Q; es_tWCK : Q; es_tRAS : N; es_tRP : N; es_tRFC : N; es_tRFCs : N; es_tREFI : N; es_rho : Q; es_mbg : bool; es_domains : list power
}.

(* numberOfBanks and numberOfBankGroups as doubles: D4 52, 71; D5 62-63; L4 58; L5
   64; L6 60. *)
Definition qB (p : espec) : Q := inject_Z (Z.of_nat (es_banks p)).
(* With qB: numberOfBanks and numberOfBankGroups as doubles: D4 52, 71; D5 62-63;
   L4 58; L5 64; L6 60. *)
Definition qBG (p : espec) : Q := inject_Z (Z.of_nat (es_groups p)).
(* numberOfDevices as a double: D4 112-117; D5 125-130; L4 122-127; L5 143-148; L6
   126-131. *)
Definition qD (p : espec) : Q := inject_Z (Z.of_nat (es_devices p)).
(* t_RAS, t_RP, t_RFC, ...: D4 44-47; D5 53-57; L4 48-53; L5 53-59; L6 49-55. *)
Definition t_ras (p : espec) : Q := qn (es_tRAS p) * es_tCK p.
(* With t_ras: t_RAS, t_RP, t_RFC, ...: D4 44-47; D5 53-57; L4 48-53; L5 53-59; L6
   49-55. *)
Definition t_rp (p : espec) : Q := qn (es_tRP p) * es_tCK p.
(* With t_ras: t_RAS, t_RP, t_RFC, ...: D4 44-47; D5 53-57; L4 48-53; L5 53-59; L6
   49-55. *)
Definition t_rfc (p : espec) : Q := qn (es_tRFC p) * es_tCK p.
(* With t_ras: t_RAS, t_RP, t_RFC, ...: D4 44-47; D5 53-57; L4 48-53; L5 53-59; L6
   49-55. *)
Definition t_rfcs (p : espec) : Q := qn (es_tRFCs p) * es_tCK p.
(* With t_ras: t_RAS, t_RP, t_RFC, ...: D4 44-47; D5 53-57; L4 48-53; L5 53-59; L6
   49-55. *)
Definition t_refi (p : espec) : Q := qn (es_tREFI p) * es_tCK p.

(* E_BG_pre: D4 9-11; D5 11-13; L4 19-21; L5 20-22; L6 19-21. *)
Definition E_BG_pre (B VDD IDD2_N T_BG_pre : Q) : Q := (1 / B) * VDD * IDD2_N * T_BG_pre.
(* E_BG_act_shared: D4 13-15; D5 15-17; L4 27-29; L5 28-30; L6 27-29. *)
Definition E_BG_act_shared (VDD I_rho T_BG_act : Q) : Q := VDD * I_rho * T_BG_act.
(* E_BG_act_star: D4 17-19; D5 19-22; L4 23-25; L5 24-26; L6 23-25. *)
Definition E_BG_act_star (VDD I_1 I_rho T_BG_act_star : Q) : Q := VDD * (I_1 - I_rho) * T_BG_act_star.
(* E_pre: D4 21-23; D5 24-26; L4 11-13; L5 12-14; L6 11-13. *)
Definition E_pre (VDD IBeta IDD2_N t_RP : Q) (N_pre : N) : Q := VDD * (IBeta - IDD2_N) * t_RP * qn N_pre.
(* E_act: D4 25-27; D5 28-30; L4 15-17; L5 16-18; L6 15-17. *)
Definition E_act (VDD I_theta I_1 t_RAS : Q) (N_act : N) : Q := VDD * (I_theta - I_1) * t_RAS * qn N_act.
(* E_RD with the quotient taken in double: D4 29-31; D5 32-35. *)
Definition E_RD_double (VDD IDD4_R I_B t_CK : Q) (BL DR : N) (N_RD : N) : Q := VDD * (IDD4_R - I_B) * (qn BL / qn DR) * t_CK * qn N_RD.
(* E_WR (D4 33-35; D5 37-40) and the E_RD and E_WR of LPDDR (L4 31-37; L5 32-38;
   L6 31-37): the quotient is an integer division. *)
Definition E_RW_int (VDD IDD4 I t : Q) (BL DR : N) (N_RW : N) : Q := VDD * (IDD4 - I) * qn (BL / DR) * t * qn N_RW.
(* E_ref_ab: D4 37-39; D5 42-45; L4 39-41; L5 40-42; L6 39-41. *)
Definition E_ref_ab (B VDD IDD5B I_B tRFC : Q) (N_REF : N) : Q := (1 / B) * VDD * (IDD5B - I_B) * tRFC * qn N_REF.
(* E_ref_sb: D5 47-50. *)
Definition E_ref_sb (VDD IDD5C I_BG tRFCsb BG : Q) (N_SB_REF : N) : Q := VDD * (IDD5C - I_BG) * tRFCsb * qn N_SB_REF * (1 / BG).
(* E_ref_pb: L4 43-45; L5 44-46. *)
Definition E_ref_pb (VDD IDD5PB_B I_1 tRFCPB : Q) (N_PB_REF : N) : Q := VDD * (IDD5PB_B - I_1) * tRFCPB * qn N_PB_REF.
(* E_ref_p2b: L5 48-50; E_ref_db: L6 43-46. *)
Definition E_ref_half (VDD IDD5_B I_2 tRFC : Q) (N_REF : N) : Q := (1 # 2) * VDD * (IDD5_B - I_2) * tRFC * qn N_REF.

(* I_rho: D4 69; D5 81; L4 76-78; L5 83-85; L6 79-81. *)
Definition I_rho (p : espec) (w : power) : Q :=
  match es_std p with
  | DDR4 | DDR5 => es_rho p * (pw_i3n w - pw_i2n w) + pw_i2n w
  | _ => let t1 := qB p * es_rho p in let t2 := 1 - es_rho p in (t1 * pw_i3n w + t2 * pw_i2n w) / (t1 + t2)
  end.
(* I_theta: D4 70; D5 82; L4 79; L5 88; L6 84. *)
Definition I_theta (p : espec) (w : power) : Q := (pw_i0 w * (t_rp p + t_ras p) - pw_ibeta w * t_rp p) * (1 / t_ras p).
(* I_1: D4 71; D5 83 (computed); L4 66; L5 72; L6 68 (iDD3NX). *)
Definition I_1 (p : espec) (w : power) : Q :=
  match es_std p with
  | DDR4 | DDR5 => (1 / qB p) * (pw_i3n w + (qB p - 1) * I_rho p w)
  | _ => pw_i3n w
  end.
(* I_B: D4 60; D5 71 (iXX3N); L4 82; L5 86; L6 82 (computed). *)
Definition I_B (p : espec) (w : power) : Q :=
  match es_std p with
  | DDR4 | DDR5 => pw_i3n w
  | _ => I_rho p w + qB p * (I_1 p w - I_rho p w)
  end.
(* I_BG: D5 84. *)
Definition I_BG (p : espec) (w : power) : Q := I_rho p w + (I_1 p w - I_rho p w) * qBG p.
(* I_2: L5 87; L6 83. *)
Definition I_2 (p : espec) (w : power) : Q := I_1 p w + (I_1 p w - I_rho p w).
(* IDD5PB_B: L4 80-81; L5 89-90; IDD5PDB_B: L6 85-86. *)
Definition IDD5_B (p : espec) (w : power) : Q :=
  (pw_i5s w * (t_refi p / 8) - pw_i2n w * (t_refi p / 8 - t_rfcs p)) * (1 / t_rfcs p).

(* The divisors of the double divisions of calcEnergy are not zero: D4 70-71,
   D5 49, 82-83 (B, t_RAS, BG, DR), L4 78-81, L5 85-90, L6 81-86.  With no bank
   at all only unused intermediate values would be non-finite; that case is also
   reported as [NotFinite]. *)
Definition finite_domain (p : espec) : bool :=
  negb (Qeq_bool (qB p) 0) && negb (Qeq_bool (t_ras p) 0) &&
  match es_std p with
  | DDR4 => true
  | DDR5 => negb (Qeq_bool (qBG p) 0)
  | LPDDR4 | LPDDR5 | LPDDR6 => negb (Qeq_bool (qB p * es_rho p + (1 - es_rho p)) 0) && negb (Qeq_bool (t_rfcs p) 0)
  end.

(* The body of the loop over the banks: what one voltage domain adds to the
   energy of one bank of one device.  k: stats.bank[bank_offset + b];
   r: stats.rank_total[i].  D4 83-109; D5 94-122; L4 91-119; L5 99-140; L6 95-123. *)
Definition bank_energy (p : espec) (w : power) (k r : cycle_stats) : energy_info :=
  let c := cs_counter k in
  let V := pw_v w in
  let act := E_act V (I_theta p w) (I_1 p w) (t_ras p) (cs_act c) in
  let pre n := E_pre V (pw_ibeta w) (pw_i2n w) (t_rp p) n in
  let bg_act := E_BG_act_star V (I_1 p w) (I_rho p w) (qn (cy_act (cs_cycles k)) * es_tCK p) in
  let bg_pre := E_BG_pre (qB p) V (pw_i2n w) (qn (cy_pre (cs_cycles r)) * es_tCK p) in
  let rd n :=
    match es_std p with
    | DDR4 | DDR5 => E_RD_double V (pw_i4r w) (I_B p w) (es_tCK p) (es_bl p) (es_dr p) n
    | LPDDR4 => E_RW_int V (pw_i4r w) (I_1 p w) (es_tCK p) (es_bl p) (es_dr p) n
    | LPDDR5 => E_RW_int V (pw_i4r w) (if es_mbg p then I_2 p w else I_1 p w) (es_tWCK p) (es_bl p) (es_dr p) n
    | LPDDR6 => E_RW_int V (pw_i4r w) (I_2 p w) (es_tWCK p) (es_bl p) (es_dr p) n
    end in
  let wr n :=
    match es_std p with
    | DDR4 | DDR5 => E_RW_int V (pw_i4w w) (I_B p w) (es_tCK p) (es_bl p) (es_dr p) n
    | LPDDR4 => E_RW_int V (pw_i4w w) (I_1 p w) (es_tCK p) (es_bl p) (es_dr p) n
    | LPDDR5 => E_RW_int V (pw_i4w w) (if es_mbg p then I_2 p w else I_1 p w) (es_tWCK p) (es_bl p) (es_dr p) n
    | LPDDR6 => E_RW_int V (pw_i4w w) (I_2 p w) (es_tWCK p) (es_bl p) (es_dr p) n
    end in
  let ref_ab := E_ref_ab (qB p) V (pw_i5 w) (I_B p w) (t_rfc p) (cs_refAllBank c) in
  let ref_pb :=
    match es_std p with
    | LPDDR4 | LPDDR5 => E_ref_pb V (IDD5_B p w) (I_1 p w) (t_rfcs p) (cs_refPerBank c)
    | _ => 0
    end in
  let ref_sb := match es_std p with DDR5 => E_ref_sb V (pw_i5s w) (I_BG p w) (t_rfcs p) (qBG p) (cs_refSameBank c) | _ => 0 end in
  let ref_2b := match es_std p with LPDDR5 => E_ref_half V (IDD5_B p w) (I_2 p w) (t_rfcs p) (cs_refPerTwoBanks c) | _ => 0 end in
  let ref_db := match es_std p with LPDDR6 => E_ref_half V (IDD5_B p w) (I_2 p w) (t_rfcs p) (cs_refDualBanks c) | _ => 0 end in
  mkEI act (pre (cs_pre c)) bg_act bg_pre (rd (cs_reads c)) (wr (cs_writes c)) (rd (cs_readAuto c)) (wr (cs_writeAuto c))
    (pre (cs_readAuto c)) (pre (cs_writeAuto c)) ref_ab ref_pb ref_sb ref_2b ref_db.

(* The rank-wide terms of one voltage domain: D4 112-117; D5 125-130; L4
   122-127; L5 143-148; L6 126-131. *)
Definition rank_energy (p : espec) (w : power) (r : cycle_stats) (e : energy) : energy :=
  let y := cs_cycles r in
  let V := pw_v w in
  mkE (en_bank e)
    (en_shared e + E_BG_act_shared V (I_rho p w) (qn (cy_act y) * es_tCK p) * qD p)
    (en_pdna e + V * pw_i3p w * qn (cy_pda y) * es_tCK p * qD p)
    (en_pdnp e + V * pw_i2p w * qn (cy_pdp y) * es_tCK p * qD p)
    (en_sref e + V * pw_i6 w * qn (cy_sref y) * es_tCK p * qD p)
    (match es_std p with LPDDR5 | LPDDR6 => en_dsm e + V * pw_i6ds w * qn (cy_dsm y) * es_tCK p * qD p | _ => en_dsm e end)
    (en_refab e).

(* `for (size_t b = 0; b < numberOfBanks; ++b)`: D4 83-109; D5 94-122; L4
   91-119; L5 99-140; L6 95-123.  stats.bank[] and stats.rank_total[] are
   operator[] accesses. *)
Definition bank_loop (p : espec) (w : power) (st : sim_stats) (i d : nat) (e : energy) : calc energy :=
  fold_left (fun acc b =>
    match acc with
    | Exactly e =>
        match nth_error (ss_bank st) (i * es_banks p + b)%nat, nth_error (ss_rank st) i with
        | Some k, Some r =>
            Exactly (mkE (upd (i * es_devices p * es_banks p + d * es_banks p + b) (fun x => ei_add x (bank_energy p w k r)) (en_bank e))
              (en_shared e) (en_pdna e) (en_pdnp e) (en_sref e) (en_dsm e) (en_refab e))
        | _, _ => Undefined_calc
        end
    | x => x
    end) (seq 0 (es_banks p)) (Exactly e).
(* `for (size_t d = 0; d < numberOfDevices; ++d)`: D4 76-110; D5 89-123; L4
   87-120; L5 95-141; L6 91-124. *)
Definition device_loop (p : espec) (w : power) (st : sim_stats) (i : nat) (e : energy) : calc energy :=
  fold_left (fun acc d => match acc with Exactly e => bank_loop p w st i d e | x => x end) (seq 0 (es_devices p)) (Exactly e).
(* `for (size_t i = 0; i < numberOfRanks; ++i)`: D4 75-118; D5 88-131; L4 86-128;
   L5 94-149; L6 90-132. *)
Definition rank_loop (p : espec) (w : power) (st : sim_stats) (e : energy) : calc energy :=
  fold_left (fun acc i =>
    match acc with
    | Exactly e =>
        match device_loop p w st i e with
        | Exactly e => match nth_error (ss_rank st) i with Some r => Exactly (rank_energy p w r e) | None => Undefined_calc end
        | x => x
        end
    | x => x
    end) (seq 0 (es_ranks p)) (Exactly e).
(* calcEnergy: D4 41-122; D5 52-135; L4 47-132; L5 52-153; L6 48-136.  The integer
   division BL / DR is undefined for DR = 0 (it is evaluated for every bank). *)
Definition calc_energy (p : espec) (st : sim_stats) : calc energy :=
  if (es_dr p =? 0)%N then Undefined_calc
  else if finite_domain p then
    fold_left (fun acc w => match acc with Exactly e => rank_loop p w st e | x => x end) (es_domains p)
      (Exactly (energy0 (es_banks p * es_ranks p * es_devices p)))
  else NotFinite.
