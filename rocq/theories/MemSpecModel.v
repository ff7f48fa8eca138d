(* The memory descriptions.  Models the constructors of memspec/MemSpec.h,
   MemSpecDDR4.cpp, MemSpecDDR5.cpp, MemSpecLPDDR4.cpp, MemSpecLPDDR5.cpp and
   MemSpecLPDDR6.cpp under src/DRAMPower/DRAMPower, cited below as B, D4, D5, L4,
   L5 and L6, and what the core, the interface and the two energy calculations
   copy out of the resulting object.  Numbers of a description that are doubles
   are rationals here. *)
From Coq Require Import NArith QArith List Bool.
From Verif Require Import Base Command CoreModel Bits PatternTables EnergyModel IfEnergyModel InterfaceModel DramModel.
Import ListNotations.
Local Open Scope N_scope.

(* ---- the description as it is read from a file ---- *)

(* RefModeTypeDDR4 and RefModeTypeDDR5 of DRAMUtils: D4 88-97, D5 52-57 (which has
   no fourth mode). *)
Inductive ref_mode := RefInvalid | Ref1 | Ref2 | Ref4.
(* pasrModesType of DRAMUtils: L4 65-81.  The numbers are those of
   memspec/MemSpecLPDDR4.h 82-91. *)
Inductive raw_pasr := PasrInvalid | PasrMode (n : N).
(* The members of mempowerspec that belong to one voltage domain: D4 64-103; D5
   25-64; L4 30-57; L5 34-77; L6 35-78.  rw_i5 is idd5B (DDR4), idd5b (DDR5) or
   idd5 (LPDDR); rw_i5f2 is idd5F2 (DDR4) or idd5f (DDR5); rw_i5f4 is idd5F4
   (DDR4); rw_i5s is idd5c (DDR5), idd5pb (LPDDR4, LPDDR5) or idd5pdb (LPDDR6);
   rw_i6ds exists for LPDDR5 and LPDDR6. *)
Record raw_power := mkRawPower {
  rw_v : Q; rw_i0 : Q; rw_i2n : Q; rw_i3n : Q; rw_i2p : Q; rw_i3p : Q; rw_i4r : Q; rw_i4w : Q;
  rw_i5 : Q; rw_i5f2 : Q; rw_i5f4 : Q; rw_i5s : Q; rw_i6 : Q; rw_i6ds : Q; rw_ibeta : option Q
}.
(* bankwisespec: D4 105-112; D5 67-74; L4 60-89; L5 79-84; L6 80-85. *)
Record raw_bankwise := mkRawBw { rb_rho : option Q; rb_sigma : option Q; rb_pasr : option bool; rb_mode : option raw_pasr }.
(* dataratespec: D5 88-97. *)
Record raw_rates := mkRawRates { rr_ca : N; rr_dq : N; rr_dqs : N }.
(* What the constructors read of a DRAMUtils memspec: B 61-74; D4 42-138; D5 5-97;
   L4 5-202; L5 6-134; L6 6-104.  rw_rcd is RCD (LPDDR5: RCD_S, LPDDR6: RCD_r with
   rw_rcdw for RCD_w); rw_rtp is RTP (LPDDR5, LPDDR6: RBTP); rw_rp is RP (LPDDR:
   RPpb); rw_rfc1 is RFC1 (DDR5: RFC1_slr, LPDDR: RFCab); rw_rfc2 and rw_rfc4 are
   RFC2 (DDR5: RFC2_slr) and RFC4; rw_rfcs is RFCsb_slr (DDR5), RFCpb (LPDDR4,
   LPDDR5) or RFCdb (LPDDR6).  rw_domains has an entry for every voltage domain,
   in the order of VoltageDomain: memspec/MemSpecDDR4.h 55-58, MemSpecDDR5.h
   15-18, MemSpecLPDDR4.h 16-19, MemSpecLPDDR5.h 12-16, MemSpecLPDDR6.h 12-16.
   memoryId, memoryType and the latency RL are left out: they are copied (RL for
   LPDDR4 only) and never read. *)
Record raw := mkRaw {
  rw_std : standard;
  rw_banks : N; rw_rows : N; rw_columns : N; rw_devices : N; rw_bl : N; rw_dr : N; rw_width : N; rw_groups : N; rw_ranks : N;
  rw_mode : ref_mode; rw_wck_on : bool;
  rw_tCK : Q; rw_wck : N; rw_ras : N; rw_rcd : N; rw_rcdw : N; rw_rtp : N; rw_wl : N; rw_wr : N; rw_rp : N; rw_al : N;
  rw_rfc1 : N; rw_rfc2 : N; rw_rfc4 : N; rw_rfcs : N; rw_refi : N;
  rw_domains : list raw_power; rw_vddq : Q; rw_bankwise : option raw_bankwise;
  rw_imp : impedances; rw_ambles : ambles; rw_rates : option raw_rates
}.

(* ---- the object ---- *)

(* Members of MemSpec and its five subclasses: B 59-84; memspec/MemSpecDDR4.h
   76-151; MemSpecDDR5.h 36-94; MemSpecLPDDR4.h 39-114; MemSpecLPDDR5.h 42-100;
   MemSpecLPDDR6.h 36-93.  A member a standard does not have is not read for it. *)
Record mem := mkMem {
  mm_std : standard;
  mm_banks : N; mm_rows : N; mm_columns : N; mm_devices : N; mm_bl : N; mm_dr : N; mm_width : N; mm_groups : N; mm_ranks : N; mm_bpg : N;
  mm_tCK : Q; mm_tWCK : Q; mm_wck : N; mm_tRAS : N; mm_tRCD : N; mm_tRCDW : N; mm_tRP : N; mm_tRFC : N; mm_tRFCs : N; mm_tREFI : N;
  mm_offRD : N; mm_offWR : N; mm_power : list power; mm_vddq : Q; mm_rho : Q; mm_imp : impedances; mm_ambles : ambles;
  mm_rates : raw_rates; mm_arch : bank_arch; mm_wck_on : bool; mm_sigma : Q; mm_pasr : bool; mm_pasr_mode : N; mm_active : list N
}.

(* std::optional::value_or. *)
(* E.g. MemSpecDDR4.cpp 102-107. *)
Definition value_or {A} (o : option A) (d : A) : A := match o with Some x => x | None => d end.
(* a / b on uint64_t. *)
Definition u64_div (a b : N) : result N := if b =? 0 then Fails UB else Value (a / b).

(* numberOfDevices: B 66-70. *)
Definition devices_of (w : raw) : N := if rw_devices w <? 1 then 1 else rw_devices w.
(* banksPerGroup: D5 10; L4 10; L5 11; L6 11; DDR4 has none. *)
Definition banks_per_group (w : raw) : result N := match rw_std w with DDR4 => Value 0 | _ => u64_div (rw_banks w) (rw_groups w) end.
(* The current iXX5X of one domain: D4 88-101; D5 52-61; L4 36, 48; L5 40, 53, 66;
   L6 41, 54, 67. *)
Definition refresh_current (w : raw) (d : raw_power) : Q :=
  match rw_std w, rw_mode w with
  | DDR4, Ref2 | DDR5, Ref2 => rw_i5f2 d
  | DDR4, Ref4 => rw_i5f4 d
  | _, _ => rw_i5 d
  end.
(* tRFC: D4 91, 95, 100; D5 55, 60; L4 21; L5 23; L6 24. *)
Definition refresh_time (w : raw) : N :=
  match rw_std w, rw_mode w with
  | DDR4, Ref2 | DDR5, Ref2 => rw_rfc2 w
  | DDR4, Ref4 => rw_rfc4 w
  | _, _ => rw_rfc1 w
  end.
(* memPowerSpec[vd]: D4 64-103; D5 25-64; L4 30-57; L5 34-77; L6 35-78. *)
Definition power_of (w : raw) (d : raw_power) : power :=
  mkPower (rw_v d) (rw_i0 d) (rw_i2n d) (rw_i3n d) (rw_i2p d) (rw_i3p d) (rw_i4r d) (rw_i4w d)
          (refresh_current w d) (rw_i5s d) (rw_i6 d) (rw_i6ds d) (value_or (rw_ibeta d) (rw_i0 d)).
(* bwPowerFactRho: D4 105-112; D5 67-74; L4 62, 85; L5 79-84; L6 80-85. *)
Definition rho_of (w : raw) : Q := match rw_bankwise w with Some b => value_or (rb_rho b) 1%Q | None => 1%Q end.
(* bwPowerFactSigma, flgPASR, pasrMode: L4 60-89. *)
Definition sigma_of (w : raw) : Q := match rw_bankwise w with Some b => value_or (rb_sigma b) 1%Q | None => 1%Q end.
(* With sigma_of: bwPowerFactSigma, flgPASR, pasrMode: L4 60-89. *)
Definition pasr_of (w : raw) : bool := match rw_bankwise w with Some b => value_or (rb_pasr b) false | None => false end.
(* With sigma_of: bwPowerFactSigma, flgPASR, pasrMode: L4 60-89. *)
Definition pasr_mode_of (w : raw) : N :=
  match rw_bankwise w with
  | Some b => match rb_mode b with Some (PasrMode n) => n | Some PasrInvalid | None => 0 end
  | None => 0
  end.
(* std::vector<uint64_t>::resize(n), then std::iota from f: a size beyond max_size
   (2^63 / 8) is an exception.  A size that is merely too large for the machine is
   not modelled. *)
Definition resize_iota (n from : N) : result (list N) :=
  if 2 ^ 60 <=? n then Fails Exception else Value (map (fun i => from + N.of_nat i) (seq 0 (N.to_nat n))).
(* The switch over the modes: L4 91-182. *)
Definition active_banks (w : raw) : result (list N) :=
  if pasr_of w then
    let less k from := resize_iota (u64_sub (rw_banks w) k) from in
    match pasr_mode_of w with
    | 1 => less 4 0 | 2 => less 6 0 | 3 => less 7 0 | 4 => less 2 2 | 5 => less 4 4 | 6 => less 6 6 | 7 => less 7 7
    | _ => resize_iota (rw_banks w) 0
    end
  else Value [].
(* bank_arch, with what BankArchError leaves in numberOfBanks and
   numberOfBankGroups: L5 87-115. *)
Definition bank_arch_of (w : raw) : bank_arch * N * N :=
  let error := (M16B, 16, 1) in
  if rw_banks w =? 16 then
    if (rw_groups w =? 1) || (rw_groups w =? 0) then (M16B, rw_banks w, rw_groups w)
    else if rw_groups w =? 4 then (MBG, rw_banks w, rw_groups w)
    else error
  else if rw_banks w =? 8 then
    if 1 <? rw_groups w then error else (M8B, rw_banks w, rw_groups w)
  else error.
(* tBurst: D4 114; D5 76; L5 118; L6 89.  LPDDR4 has none. *)
Definition burst_time (w : raw) : result N :=
  match rw_std w with
  | DDR4 | DDR5 => u64_div (rw_bl w) (rw_dr w)
  | LPDDR4 => Value 0
  | LPDDR5 | LPDDR6 => u64_div (rw_bl w) (u64_mul (rw_dr w) (rw_wck w))
  end.
(* prechargeOffsetRD: D4 115; D5 77; L4 185-189; L5 121; L6 92. *)
Definition offset_read (w : raw) (burst : N) : N :=
  match rw_std w with
  | DDR4 => u64_add (rw_al w) (rw_rtp w)
  | DDR5 => rw_rtp w
  | LPDDR4 => if rw_bl w =? 16 then rw_rtp w else u64_add 8 (rw_rtp w)
  | LPDDR5 | LPDDR6 => u64_add burst (rw_rtp w)
  end.
(* prechargeOffsetWR: D4 116; D5 78; L4 190; L5 124; L6 95. *)
Definition offset_write (w : raw) (burst : N) : N :=
  match rw_std w with
  | DDR4 | DDR5 => u64_add (u64_add burst (rw_wl w)) (rw_wr w)
  | LPDDR4 => u64_add (u64_add (u64_add (rw_wl w) (rw_bl w / 2)) (rw_wr w)) 1
  | LPDDR5 | LPDDR6 => u64_add (u64_add (u64_add (rw_wl w) burst) 1) (rw_wr w)
  end.
(* tWCK: L5 15; L6 15.  Division by zero leads to the undefined division of
   tBurst below, whatever the double is. *)
Definition wck_time (w : raw) : Q := (rw_tCK w / qn (rw_wck w))%Q.
(* parseDataRateSpec: D5 88-97. *)
Definition rates_of (w : raw) : raw_rates := value_or (rw_rates w) (mkRawRates 2 2 2).

(* The constructors: B 61-74 followed by D4 42-120, D5 5-82, L4 5-192, L5 6-129,
   L6 6-99.  The parts are in the order in which they can fail. *)
Definition mem_new (w : raw) : result mem :=
  bpg <- banks_per_group w ;;
  active <- match rw_std w with LPDDR4 => active_banks w | _ => Value [] end ;;
  burst <- burst_time w ;;
  let '(arch, banks, groups) := match rw_std w with LPDDR5 => bank_arch_of w | _ => (M16B, rw_banks w, rw_groups w) end in
  Value (mkMem (rw_std w) banks (rw_rows w) (rw_columns w) (devices_of w) (rw_bl w) (rw_dr w) (rw_width w) groups (rw_ranks w) bpg
    (rw_tCK w) (wck_time w) (rw_wck w) (rw_ras w) (rw_rcd w) (rw_rcdw w) (rw_rp w) (refresh_time w) (rw_rfcs w) (rw_refi w)
    (offset_read w burst) (offset_write w burst) (map (power_of w) (rw_domains w)) (rw_vddq w) (rho_of w) (rw_imp w) (rw_ambles w)
    (rates_of w) arch (rw_wck_on w) (sigma_of w) (pasr_of w) (pasr_mode_of w) active).

(* isBankActiveInPasr: L4 194-198. *)
Definition bank_active_in_pasr (m : mem) (b : N) : bool := existsb (N.eqb b) (mm_active m).

(* ---- what the parts of a DRAM object copy ---- *)

(* DDR4CoreMemSpec and the like: standards/ddr4/DDR4Core.h 25-34, ddr5/DDR5Core.h
   23-35, lpddr4/LPDDR4Core.h 24-34, lpddr5/LPDDR5Core.h 24-36, lpddr6/LPDDR6Core.h
   22-33; perTwoBankOffset is 8: memspec/MemSpecLPDDR5.h 45. *)
Definition core_view (m : mem) : memspec :=
  mkMemspec (mm_std m) (N.to_nat (mm_ranks m)) (N.to_nat (mm_banks m)) (N.to_nat (mm_groups m)) (N.to_nat (mm_bpg m))
    (mm_tRAS m) (mm_tRP m) (mm_tRCD m) (mm_tRCDW m) (mm_tRFC m)
    (mm_tRFCs m) (mm_tRFCs m) (mm_tRFCs m) (mm_offRD m) (mm_offWR m) 8
    (match mm_std m, mm_arch m with LPDDR5, M8B => true | _, _ => false end).
(* What the interface constructors take: standards/ddr4/DDR4Interface.h 31-36,
   DDR4Interface.cpp 15-46; ddr5/DDR5Interface.h 26-30, DDR5Interface.cpp 15-32;
   lpddr4/LPDDR4Interface.h 29-33, LPDDR4Interface.cpp 17-39;
   lpddr5/LPDDR5Interface.h 29-35, LPDDR5Interface.cpp 15-38;
   lpddr6/LPDDR6Interface.h 30-35, LPDDR6Interface.cpp 21-45. *)
Definition interface_view (m : mem) (grow : nat -> nat) (wild : option (nat -> bool)) : ifspec :=
  mkIfspec (mm_std m) (mm_dr m) (mm_bl m) (mm_width m) (mm_devices m) (N.to_nat (mm_ranks m))
    (rr_dqs (mm_rates m)) (mm_wck m) (mm_wck_on m) (mm_arch m) (mm_groups m) grow wild.
(* What the core calculations read: standards/ddr4/core_calculation_DDR4.cpp 44-83,
   ddr5/core_calculation_DDR5.cpp 53-94, lpddr4/core_calculation_LPDDR4.cpp 48-91,
   lpddr5/core_calculation_LPDDR5.cpp 53-111, lpddr6/core_calculation_LPDDR6.cpp
   49-95. *)
Definition energy_view (m : mem) : espec :=
  mkEspec (mm_std m) (N.to_nat (mm_ranks m)) (N.to_nat (mm_devices m)) (N.to_nat (mm_banks m)) (N.to_nat (mm_groups m)) (mm_bl m) (mm_dr m)
    (mm_tCK m) (mm_tWCK m) (mm_tRAS m) (mm_tRP m) (mm_tRFC m) (mm_tRFCs m) (mm_tREFI m) (mm_rho m)
    (match mm_arch m with MBG => true | _ => false end) (mm_power m).
(* What the interface calculations read: ddr4/interface_calculation_DDR4.cpp 23-28,
   57, 66-69, 106; ddr5/interface_calculation_DDR5.cpp 23-27, 59, 76;
   lpddr4/interface_calculation_LPDDR4.cpp 5-10; lpddr5/interface_calculation_LPDDR5.cpp
   23-28; lpddr6/interface_calculation_LPDDR6.cpp 22-27. *)
Definition ifenergy_view (m : mem) : ispec :=
  mkIspec (mm_std m) (mm_tCK m) (mm_tWCK m) (mm_vddq m) (mm_dr m) (rr_dqs (mm_rates m)) (mm_width m) (mm_imp m) (mm_ambles m).
(* DDR4(memSpec, simConfig) and the like hand one object to all four: ddr4/DDR4.cpp
   17-23, 49-57; ddr5/DDR5.cpp 16-20, 32-40; lpddr4/LPDDR4.cpp 14-20, 42-50;
   lpddr5/LPDDR5.cpp 16-22, 43-51; lpddr6/LPDDR6.cpp 16-22, 49-57. *)
Definition views (m : mem) (sim : option toggle_def) (grow : nat -> nat) (wild : option (nat -> bool)) : dspec :=
  mkDspec (core_view m) (interface_view m grow wild) sim (energy_view m) (ifenergy_view m).
