(* Model of the five DRAM cores:
     src/DRAMPower/DRAMPower/standards/{ddr4/DDR4Core,ddr5/DDR5Core,
       lpddr4/LPDDR4Core,lpddr5/LPDDR5Core,lpddr6/LPDDR6Core}.cpp
   together with dram/Bank.h, dram/Rank.{h,cpp}, util/cycle_stats.h,
   util/ImplicitCommandHandler.h and util/RegisterHelper.h.
   Paths below are relative to src/DRAMPower/DRAMPower.

   The handlers of the standards are the same up to the differences spelled out
   here, so there is one function per handler with the standard as parameter.
   In the citations D4 = standards/ddr4/DDR4Core.cpp, D5 =
   standards/ddr5/DDR5Core.cpp, L4/L5/L6 = standards/lpddr{4,5,6}/LPDDR{4,5,6}Core.cpp.

   Every handler touches one rank only.  A handler is therefore a function from
   that rank to the new rank and the implicit commands it schedules, in order. *)
From Coq Require Import NArith List Bool.
From Verif Require Import Base Command.
Import ListNotations.
Local Open Scope N_scope.

(* ------------------------------------------------------------------ *)
(* util/cycle_stats.h: interval_counter<uint64_t>                      *)
(* ------------------------------------------------------------------ *)

(* Fields: util/cycle_stats.h 17-20. *)
Record interval := mkInterval {
  iv_count : N;
  iv_start : option N;
  iv_end : option N
}.

(* Default constructor: util/cycle_stats.h 17-22. *)
Definition iv_new : interval := mkInterval 0 None None.

(* get_start / get_end: util/cycle_stats.h 31-32. *)
Definition iv_get_start (i : interval) : N :=
  match iv_start i with Some s => s | None => 0 end.
(* With iv_get_start: get_start / get_end: util/cycle_stats.h 31-32. *)
Definition iv_get_end (i : interval) : N :=
  match iv_end i with Some s => s | None => 0 end.

(* is_open: util/cycle_stats.h 34. *)
Definition iv_is_open (i : interval) : bool :=
  match iv_start i, iv_end i with Some _, None => true | _, _ => false end.

(* get_count_at: util/cycle_stats.h 41-46. *)
Definition iv_count_at (t : N) (i : interval) : N :=
  if iv_is_open i && (iv_get_start i <? t)
  then u64_sub (u64_add (iv_count i) t) (iv_get_start i)
  else iv_count i.

(* close_interval: util/cycle_stats.h 52-61 (the returned difference is unused
   by every caller and is dropped). *)
Definition iv_close (t : N) (i : interval) : interval :=
  if iv_is_open i
  then mkInterval (u64_add (iv_count i) (u64_sub t (iv_get_start i)))
                  (iv_start i) (Some t)
  else i.

(* start_interval: util/cycle_stats.h 68-71. *)
Definition iv_start_at (t : N) (i : interval) : interval :=
  mkInterval (iv_count i) (Some t) None.

(* start_interval_if_not_running: util/cycle_stats.h 73-76. *)
Definition iv_start_if_closed (t : N) (i : interval) : interval :=
  if iv_is_open i then i else iv_start_at t i.

(* ------------------------------------------------------------------ *)
(* data/stats.h: command_stats_t                                       *)
(* ------------------------------------------------------------------ *)

(* Fields of command_stats_t: data/stats.h 16-26. *)
Record cstats := mkCstats {
  cs_act : N; cs_pre : N; cs_reads : N; cs_writes : N;
  cs_refAllBank : N; cs_refPerBank : N; cs_refPerTwoBanks : N;
  cs_refDualBanks : N; cs_refSameBank : N; cs_readAuto : N; cs_writeAuto : N
}.

(* Names of those fields, used to say which counter a handler increments. *)
(* data/stats.h 16-26. *)
Inductive ckind :=
| K_act | K_pre | K_reads | K_writes | K_refAllBank | K_refPerBank
| K_refPerTwoBanks | K_refDualBanks | K_refSameBank | K_readAuto | K_writeAuto.

(* The member of command_stats_t with a name: data/stats.h 16-26. *)
Definition cs_get (k : ckind) (c : cstats) : N :=
  match k with
  | K_act => cs_act c | K_pre => cs_pre c | K_reads => cs_reads c
  | K_writes => cs_writes c | K_refAllBank => cs_refAllBank c
  | K_refPerBank => cs_refPerBank c | K_refPerTwoBanks => cs_refPerTwoBanks c
  | K_refDualBanks => cs_refDualBanks c | K_refSameBank => cs_refSameBank c
  | K_readAuto => cs_readAuto c | K_writeAuto => cs_writeAuto c
  end.

(* Default member initialisers: data/stats.h 16-26. *)
Definition cs_zero : cstats := mkCstats 0 0 0 0 0 0 0 0 0 0 0.

(* `++counter.<k>` *)
(* As in D4 71, 85, 113, 138, 157 and so on; the members are data/stats.h 16-26. *)
Definition cs_bump (k : ckind) (c : cstats) : cstats :=
  let '(mkCstats a p r w ra rp r2 rd rs ru wu) := c in
  match k with
  | K_act => mkCstats (u64_inc a) p r w ra rp r2 rd rs ru wu
  | K_pre => mkCstats a (u64_inc p) r w ra rp r2 rd rs ru wu
  | K_reads => mkCstats a p (u64_inc r) w ra rp r2 rd rs ru wu
  | K_writes => mkCstats a p r (u64_inc w) ra rp r2 rd rs ru wu
  | K_refAllBank => mkCstats a p r w (u64_inc ra) rp r2 rd rs ru wu
  | K_refPerBank => mkCstats a p r w ra (u64_inc rp) r2 rd rs ru wu
  | K_refPerTwoBanks => mkCstats a p r w ra rp (u64_inc r2) rd rs ru wu
  | K_refDualBanks => mkCstats a p r w ra rp r2 (u64_inc rd) rs ru wu
  | K_refSameBank => mkCstats a p r w ra rp r2 rd (u64_inc rs) ru wu
  | K_readAuto => mkCstats a p r w ra rp r2 rd rs (u64_inc ru) wu
  | K_writeAuto => mkCstats a p r w ra rp r2 rd rs ru (u64_inc wu)
  end.

(* ------------------------------------------------------------------ *)
(* dram/Bank.h, dram/Rank.h                                            *)
(* ------------------------------------------------------------------ *)

(* struct Bank: dram/Bank.h 13-31.  bk_active is `bankState == BANK_ACTIVE`.
   cycles.powerDownAct and cycles.powerDownPre are never written by any core;
   they are kept because they are serialized. *)
Record bank := mkBank {
  bk_counter : cstats;
  bk_act : interval;
  bk_pda : interval;
  bk_pdp : interval;
  bk_active : bool;
  bk_latestPre : N;
  bk_refreshEnd : N
}.

(* Value-initialised Bank: `banks(numBanks)` in Rank::Rank, dram/Rank.cpp 7-9;
   bankState is zero-initialised to BANK_PRECHARGED. *)
Definition bank_new : bank := mkBank cs_zero iv_new iv_new iv_new false 0 0.

(* Assignment to one member of Bank (counter): dram/Bank.h 13-31; no function of
   the source. *)
Definition bk_set_counter c (b : bank) :=
  mkBank c (bk_act b) (bk_pda b) (bk_pdp b) (bk_active b) (bk_latestPre b) (bk_refreshEnd b).
(* Assignment to one member of Bank (cycles.act): dram/Bank.h 13-31; no function
   of the source. *)
Definition bk_set_act i (b : bank) :=
  mkBank (bk_counter b) i (bk_pda b) (bk_pdp b) (bk_active b) (bk_latestPre b) (bk_refreshEnd b).
(* Assignment to one member of Bank (bankState): dram/Bank.h 13-31; no function of
   the source. *)
Definition bk_set_active s (b : bank) :=
  mkBank (bk_counter b) (bk_act b) (bk_pda b) (bk_pdp b) s (bk_latestPre b) (bk_refreshEnd b).
(* Assignment to one member of Bank (latestPre): dram/Bank.h 13-31; no function of
   the source. *)
Definition bk_set_latestPre t (b : bank) :=
  mkBank (bk_counter b) (bk_act b) (bk_pda b) (bk_pdp b) (bk_active b) t (bk_refreshEnd b).
(* Assignment to one member of Bank (refreshEndTime): dram/Bank.h 13-31; no
   function of the source. *)
Definition bk_set_refreshEnd t (b : bank) :=
  mkBank (bk_counter b) (bk_act b) (bk_pda b) (bk_pdp b) (bk_active b) (bk_latestPre b) t.

(* ++bank.counter.k, as in D4 71, 85, 113, 138, 157. *)
Definition bk_bump k (b : bank) : bank := bk_set_counter (cs_bump k (bk_counter b)) b.

(* enum class MemState: dram/Rank.h 16-22. *)
Inductive memState := NOT_IN_PD | PDN_ACT | PDN_PRE | SREF | DSM.
Scheme Equality for memState.

(* struct Rank: dram/Rank.h 25-43. *)
Record rank := mkRank {
  rk_memState : memState;
  rk_pre : interval;
  rk_act : interval;
  rk_ref : interval;
  rk_sref : interval;
  rk_pda : interval;
  rk_pdp : interval;
  rk_dsm : interval;
  rk_n_sref : N;
  rk_n_dsm : N;
  rk_endRefresh : N;
  rk_banks : list bank
}.

(* Rank::Rank(numBanks): dram/Rank.cpp 7-9. *)
Definition rank_new (nbanks : nat) : rank :=
  mkRank NOT_IN_PD iv_new iv_new iv_new iv_new iv_new iv_new iv_new 0 0 0
         (repeat bank_new nbanks).

(* Assignment to one member of Rank (memState): dram/Rank.h 25-43; no function of
   the source. *)
Definition rk_set_memState m (r : rank) :=
  mkRank m (rk_pre r) (rk_act r) (rk_ref r) (rk_sref r) (rk_pda r) (rk_pdp r)
         (rk_dsm r) (rk_n_sref r) (rk_n_dsm r) (rk_endRefresh r) (rk_banks r).
(* Assignment to one member of Rank (cycles.act): dram/Rank.h 25-43; no function
   of the source. *)
Definition rk_set_act i (r : rank) :=
  mkRank (rk_memState r) (rk_pre r) i (rk_ref r) (rk_sref r) (rk_pda r) (rk_pdp r)
         (rk_dsm r) (rk_n_sref r) (rk_n_dsm r) (rk_endRefresh r) (rk_banks r).
(* Assignment to one member of Rank (cycles.sref): dram/Rank.h 25-43; no function
   of the source. *)
Definition rk_set_sref i (r : rank) :=
  mkRank (rk_memState r) (rk_pre r) (rk_act r) (rk_ref r) i (rk_pda r) (rk_pdp r)
         (rk_dsm r) (rk_n_sref r) (rk_n_dsm r) (rk_endRefresh r) (rk_banks r).
(* Assignment to one member of Rank (cycles.powerDownAct): dram/Rank.h 25-43; no
   function of the source. *)
Definition rk_set_pda i (r : rank) :=
  mkRank (rk_memState r) (rk_pre r) (rk_act r) (rk_ref r) (rk_sref r) i (rk_pdp r)
         (rk_dsm r) (rk_n_sref r) (rk_n_dsm r) (rk_endRefresh r) (rk_banks r).
(* Assignment to one member of Rank (cycles.powerDownPre): dram/Rank.h 25-43; no
   function of the source. *)
Definition rk_set_pdp i (r : rank) :=
  mkRank (rk_memState r) (rk_pre r) (rk_act r) (rk_ref r) (rk_sref r) (rk_pda r) i
         (rk_dsm r) (rk_n_sref r) (rk_n_dsm r) (rk_endRefresh r) (rk_banks r).
(* Assignment to one member of Rank (cycles.deepSleepMode): dram/Rank.h 25-43; no
   function of the source. *)
Definition rk_set_dsm i (r : rank) :=
  mkRank (rk_memState r) (rk_pre r) (rk_act r) (rk_ref r) (rk_sref r) (rk_pda r)
         (rk_pdp r) i (rk_n_sref r) (rk_n_dsm r) (rk_endRefresh r) (rk_banks r).
(* Assignment to one member of Rank (counter.selfRefresh): dram/Rank.h 25-43; no
   function of the source. *)
Definition rk_set_n_sref n (r : rank) :=
  mkRank (rk_memState r) (rk_pre r) (rk_act r) (rk_ref r) (rk_sref r) (rk_pda r)
         (rk_pdp r) (rk_dsm r) n (rk_n_dsm r) (rk_endRefresh r) (rk_banks r).
(* Assignment to one member of Rank (counter.deepSleepMode): dram/Rank.h 25-43; no
   function of the source. *)
Definition rk_set_n_dsm n (r : rank) :=
  mkRank (rk_memState r) (rk_pre r) (rk_act r) (rk_ref r) (rk_sref r) (rk_pda r)
         (rk_pdp r) (rk_dsm r) (rk_n_sref r) n (rk_endRefresh r) (rk_banks r).
(* Assignment to one member of Rank (endRefreshTime): dram/Rank.h 25-43; no
   function of the source. *)
Definition rk_set_endRefresh t (r : rank) :=
  mkRank (rk_memState r) (rk_pre r) (rk_act r) (rk_ref r) (rk_sref r) (rk_pda r)
         (rk_pdp r) (rk_dsm r) (rk_n_sref r) (rk_n_dsm r) t (rk_banks r).
(* Assignment to one member of Rank (banks): dram/Rank.h 25-43; no function of the
   source. *)
Definition rk_set_banks bs (r : rank) :=
  mkRank (rk_memState r) (rk_pre r) (rk_act r) (rk_ref r) (rk_sref r) (rk_pda r)
         (rk_pdp r) (rk_dsm r) (rk_n_sref r) (rk_n_dsm r) (rk_endRefresh r) bs.

(* A change of rank.banks[b]: dram/Rank.h 25-43; every handler takes the bank by
   reference (util/RegisterHelper.h 13-21). *)
Definition rk_upd_bank (b : nat) (f : bank -> bank) (r : rank) : rank :=
  rk_set_banks (upd b f (rk_banks r)) r.

(* Rank::isActive: dram/Rank.cpp 11-16, with countActiveBanks 18-23
   (the console warning is not modelled). *)
Definition rank_is_active (t : N) (r : rank) : bool :=
  existsb bk_active (rk_banks r) || (t <? rk_endRefresh r).

(* ------------------------------------------------------------------ *)
(* Memory specification: the fields the cores read                     *)
(* ------------------------------------------------------------------ *)

(* The *CoreMemSpec structs: standards/ddr4/DDR4Core.h, ddr5/DDR5Core.h,
   lpddr4/LPDDR4Core.h, lpddr5/LPDDR5Core.h, lpddr6/LPDDR6Core.h.
   ms_tRFC is tRFC (LPDDR6: tRFCAB).  ms_tRCD is tRCD (LPDDR6: tRCDR, with
   ms_tRCDW for tRCDW).  ms_m8b is `bank_arch` being neither MBG nor M16B.
   A field a standard does not have is ignored by it. *)
Record memspec := mkMemspec {
  ms_std : standard;
  ms_ranks : nat;
  ms_banks : nat;
  ms_groups : nat;
  ms_banksPerGroup : nat;
  ms_tRAS : N;
  ms_tRP : N;
  ms_tRCD : N;
  ms_tRCDW : N;
  ms_tRFC : N;
  ms_tRFCsb : N;
  ms_tRFCPB : N;
  ms_tRFCDB : N;
  ms_offRD : N;      (* prechargeOffsetRD *)
  ms_offWR : N;      (* prechargeOffsetWR *)
  ms_p2bOffset : nat; (* perTwoBankOffset *)
  ms_m8b : bool
}.

(* tRCD as used by earliestPossiblePowerDownEntryTime: D4 285, D5 304, L4 279,
   L5 313, L6 288 (maximum of tRCDR and tRCDW). *)
Definition t_rcd (p : memspec) : N :=
  match ms_std p with LPDDR6 => N.max (ms_tRCD p) (ms_tRCDW p) | _ => ms_tRCD p end.

(* ------------------------------------------------------------------ *)
(* Implicit commands (the lambdas given to addImplicitCommand)         *)
(* ------------------------------------------------------------------ *)

(* One constructor per lambda; the captured timestamp always equals the
   timestamp under which the lambda is queued. *)
(* util/ImplicitCommandHandler.h 16-26 is where the lambdas are queued. *)
Inductive ricmd :=
| RI_pre (b : nat)       (* RDA/WRA: D4 151-153, 170-172; D5 179-183, 200-204; L4 250-254, 267-271; L5 179-183, 199-203; L6 177-181, 197-201 *)
| RI_refEnd (b : nat)    (* D4 120-131; D5 153-162; L4 119-128; L5 153-162; L6 151-160 *)
| RI_sref                (* D4 180-185; D5 214-219; L4 150-155; L5 211-216; L6 209-214 *)
| RI_pdaIn               (* D4 198-207; D5 232-244; L4 168-180; L5 229-241; L6 227-237 *)
| RI_pdaOut              (* D4 216-234; D5 252-270; L4 188-206; L5 249-267; L6 245-255 *)
| RI_pdpIn               (* D4 242-250; D5 278-282; L4 213-217; L5 274-278; L6 262-266 *)
| RI_pdpOut.             (* D4 259-277; D5 290-294; L4 225-229; L5 286-290; L6 274-278 *)

(* The calls of addImplicitCommand that a handler makes:
   util/ImplicitCommandHandler.h 16-26. *)
Notation events := (list (N * ricmd)).

(* ------------------------------------------------------------------ *)
(* Handlers                                                            *)
(* ------------------------------------------------------------------ *)

(* rank.cycles.act.close_interval(t): D4 93, 128, 202, 249; D5 97, 160, 237; L4
   93, 126, 173; L5 106, 160, 234; L6 106, 158, 231. *)
Definition rk_close_act (t : N) (r : rank) : rank :=
  rk_set_act (iv_close t (rk_act r)) r.
(* rank.cycles.act.start_interval(t): D4 232; D5 81, 140, 267; L4 77, 109, 203; L5
   90, 144, 264; L6 90, 142, 249. *)
Definition rk_start_act (t : N) (r : rank) : rank :=
  rk_set_act (iv_start_at t (rk_act r)) r.

(* `if (!rank.isActive(t)) rank.cycles.act.close_interval(t);` *)
(* D4 90, 126; D5 96, 159; L4 92, 125; L5 105, 159; L6 105, 157. *)
Definition close_if_idle (t : N) (r : rank) : rank :=
  if rank_is_active t r then r else rk_close_act t r.

(* `if (!rank.isActive(t)) rank.cycles.act.start_interval(t);` *)
(* D5 80, 139; L4 76, 108; L5 89, 143; L6 89, 141. *)
Definition start_if_idle (t : N) (r : rank) : rank :=
  if rank_is_active t r then r else rk_start_act t r.

(* handleAct: D4 70-78; D5 75-85; L4 71-81; L5 84-94; L6 84-94. *)
Definition h_act (p : memspec) (b : nat) (t : N) (r : rank) : rank :=
  match ms_std p with
  | DDR4 =>
      let r1 := rk_upd_bank b (fun k =>
                  bk_set_act (iv_start_at t (bk_act k))
                    (bk_set_active true (bk_bump K_act k))) r in
      rk_set_act (iv_start_if_closed t (rk_act r1)) r1
  | _ =>
      let r1 := rk_upd_bank b (fun k =>
                  bk_set_act (iv_start_at t (bk_act k)) (bk_bump K_act k)) r in
      let r2 := start_if_idle t r1 in
      rk_upd_bank b (bk_set_active true) r2
  end.

(* handlePre: D4 80-96; D5 87-99; L4 83-95; L5 96-108; L6 96-108. *)
Definition h_pre (t : N) (b : nat) (r : rank) : rank :=
  match nth_error (rk_banks r) b with
  | None => r
  | Some k =>
      if bk_active k then
        let r1 := rk_upd_bank b (fun k =>
                    bk_set_latestPre t
                      (bk_set_act (iv_close t (bk_act k))
                        (bk_set_active false (bk_bump K_pre k)))) r in
        close_if_idle t r1
      else r
  end.

(* handlePreAll: D4 98-101; D5 109-113; L4 97-101; L5 110-114; L6 110-114. *)
Definition h_preAll (t : N) (r : rank) : rank :=
  fold_left (fun r b => h_pre t b r) (seq 0 (length (rk_banks r))) r.

(* Banks visited by the loops of handlePreSameBank / handleRefSameBank:
   D5 102-104 and 116-118. *)
Definition same_bank_ids (p : memspec) (b : nat) : list nat :=
  map (fun g => (g * ms_banksPerGroup p + Nat.modulo b (ms_banksPerGroup p))%nat)
      (seq 0 (ms_groups p)).

(* handlePreSameBank: D5 101-107. *)
Definition h_preSame (p : memspec) (b : nat) (t : N) (r : rank) : rank :=
  fold_left (fun r b => h_pre t b r) (same_bank_ids p b) r.

(* Bank part of handleRefreshOnBank: D5 134-163; L4 103-129; L5 139-163;
   L6 137-161.  [k] is the counter the caller passes by reference. *)
Definition h_refreshOnBank (k : ckind) (timing : N) (t : N) (b : nat) (r : rank)
  : rank * events :=
  let tend := u64_add t timing in
  let r0 := rk_upd_bank b (bk_bump k) r in
  let r1 := start_if_idle t r0 in
  let r2 := rk_upd_bank b (fun bk =>
              bk_set_act (iv_start_if_closed t (bk_act bk))
                (bk_set_refreshEnd tend (bk_set_active true bk))) r1 in
  (r2, [(tend, RI_refEnd b)]).

(* A loop of handleRefreshOnBank calls over the given banks. *)
(* D5 116-121, 125-131; L4 132-137; L5 121-137; L6 116-134. *)
Definition refresh_banks (k : ckind) (timing : N) (t : N) (bs : list nat) (r : rank)
  : rank * events :=
  fold_left (fun acc b =>
               let '(r, evs) := acc in
               let '(r', e) := h_refreshOnBank k timing t b r in
               (r', evs ++ e)) bs (r, []).

(* One iteration of the loop in DDR4Core::handleRefAll: D4 109-132. *)
Definition ddr4_ref_bank (t tend : N) (b : nat) (r : rank) : rank :=
  rk_upd_bank b (fun bk =>
    bk_set_refreshEnd tend
      (bk_set_act (iv_start_if_closed t (bk_act bk))
        (bk_bump K_refAllBank (bk_set_active true bk)))) r.

(* handleRefAll: D4 103-135; D5 124-132; L4 131-138; L5 130-137; L6 126-135. *)
Definition h_refAll (p : memspec) (t : N) (r : rank) : rank * events :=
  let ids := seq 0 (length (rk_banks r)) in
  let tend := u64_add t (ms_tRFC p) in
  match ms_std p with
  | DDR4 =>
      let r1 := rk_set_endRefresh tend r in
      let r2 := rk_set_act (iv_start_if_closed t (rk_act r1)) r1 in
      (fold_left (fun r b => ddr4_ref_bank t tend b r) ids r2,
       map (fun b => (tend, RI_refEnd b)) ids)
  | _ =>
      let '(r1, evs) := refresh_banks K_refAllBank (ms_tRFC p) t ids r in
      (rk_set_endRefresh tend r1, evs)
  end.

(* handleRefSameBank: D5 115-122. *)
Definition h_refSame (p : memspec) (b : nat) (t : N) (r : rank) : rank * events :=
  refresh_banks K_refSameBank (ms_tRFCsb p) t (same_bank_ids p b) r.

(* handleRefPerBank: L4 140-143; L5 116-119. *)
Definition h_refPerBank (p : memspec) (b : nat) (t : N) (r : rank) : rank * events :=
  refresh_banks K_refPerBank (ms_tRFCPB p) t [b] r.

(* bank_2_idx in handleRefPerTwoBanks: L5 123. *)
Definition p2b_second (p : memspec) (b : nat) : nat :=
  Nat.modulo (b + ms_p2bOffset p) 16.

(* handleRefPerTwoBanks: L5 121-128. *)
Definition h_refTwoBanks (p : memspec) (b : nat) (t : N) (r : rank) : rank * events :=
  refresh_banks K_refPerTwoBanks (ms_tRFCPB p) t [b; p2b_second p b] r.

(* handleRefDualBanks: L6 116-124. *)
Definition h_refDual (p : memspec) (b1 b2 : nat) (t : N) (r : rank) : rank * events :=
  refresh_banks K_refDualBanks (ms_tRFCDB p) t [b1; b2] r.

(* handleRead / handleWrite: D4 137-139, 156-158; D5 165-167, 186-188;
   L4 232-238; L5 165-167, 186-188; L6 163-165, 184-186. *)
Definition h_rw (k : ckind) (b : nat) (r : rank) : rank := rk_upd_bank b (bk_bump k) r.

(* delayed_timestamp of handleReadAuto / handleWriteAuto: D4 145-148, 164-167;
   D5 173-176, 194-197; L4 244-247, 261-264; L5 173-176, 194-197;
   L6 171-174, 192-195. *)
Definition autopre_time (p : memspec) (off : N) (t : N) (k : bank) : N :=
  N.max (u64_add (iv_get_start (bk_act k)) (ms_tRAS p)) (u64_add t off).

(* handleReadAuto / handleWriteAuto: D4 141-154, 160-173; D5 169-184, 190-205;
   L4 240-255, 257-272; L5 169-184, 190-204; L6 167-182, 188-202. *)
Definition h_rwAuto (p : memspec) (k : ckind) (off : N) (b : nat) (t : N) (r : rank)
  : rank * events :=
  match nth_error (rk_banks r) b with
  | None => (r, [])
  | Some bk => (rk_upd_bank b (bk_bump k) r, [(autopre_time p off t bk, RI_pre b)])
  end.

(* handleSelfRefreshEntry: D4 175-186; D5 207-220; L4 145-156; L5 206-217;
   L6 204-215. *)
Definition h_srefEntry (p : memspec) (t : N) (r : rank) : rank * events :=
  let '(r1, evs) := h_refAll p t r in
  (r1, evs ++ [(u64_add t (ms_tRFC p), RI_sref)]).

(* handleSelfRefreshExit: D4 188-192; D5 222-226; L4 158-162; L5 219-223;
   L6 217-221.  The leading assert makes the result an outcome. *)
Definition h_srefExit (t : N) (r : rank) : outcome rank :=
  match rk_memState r with
  | SREF => Ok (rk_set_memState NOT_IN_PD (rk_set_sref (iv_close t (rk_sref r)) r))
  | _ => Asserts
  end.

(* handleDSMEntry: L5 293-298; handleDSMExit: L5 300-304. *)
Definition h_dsmEntry (t : N) (r : rank) : outcome rank :=
  match rk_memState r with
  | SREF => Ok (rk_set_memState DSM
                 (rk_set_n_dsm (u64_inc (rk_n_dsm r))
                   (rk_set_dsm (iv_start_at t (rk_dsm r)) r)))
  | _ => Asserts
  end.
(* With h_dsmEntry: handleDSMEntry: L5 293-298; handleDSMExit: L5 300-304. *)
Definition h_dsmExit (t : N) (r : rank) : outcome rank :=
  match rk_memState r with
  | DSM => Ok (rk_set_memState SREF (rk_set_dsm (iv_close t (rk_dsm r)) r))
  | _ => Asserts
  end.

(* Contribution of one bank to earliestPossiblePowerDownEntryTime:
   D4 285-287; D5 303-306; L4 279-281; L5 312-315; L6 287-290. *)
Definition bank_pd_time (p : memspec) (k : bank) : N :=
  N.max (if cs_act (bk_counter k) =? 0 then 0
         else u64_add (iv_get_start (bk_act k)) (t_rcd p))
        (N.max (if cs_pre (bk_counter k) =? 0 then 0
                else u64_add (bk_latestPre k) (ms_tRP p))
               (bk_refreshEnd k)).

(* earliestPossiblePowerDownEntryTime: D4 280-292; D5 297-310; L4 274-286;
   L5 306-319; L6 281-294. *)
Definition earliest_pd (p : memspec) (r : rank) : N :=
  fold_left (fun e k => N.max e (bank_pd_time p k)) (rk_banks r) 0.

(* handlePowerDownActEntry: D4 194-208; D5 228-245; L4 164-181; L5 225-242;
   L6 223-238. *)
Definition h_pdaEntry (p : memspec) (t : N) (r : rank) : rank * events :=
  (r, [(N.max t (earliest_pd p r), RI_pdaIn)]).

(* handlePowerDownActExit: D4 210-235 (with assert 212); D5 247-271; L4 183-207;
   L5 244-268; L6 240-256. *)
Definition h_pdaExit (p : memspec) (t : N) (r : rank) : outcome (rank * events) :=
  let e := (r, [(N.max t (earliest_pd p r), RI_pdaOut)]) in
  match ms_std p with
  | DDR4 => match rk_memState r with PDN_ACT => Ok e | _ => Asserts end
  | _ => Ok e
  end.

(* handlePowerDownPreEntry: D4 237-251; D5 273-283; L4 209-218; L5 270-279;
   L6 258-267. *)
Definition h_pdpEntry (p : memspec) (t : N) (r : rank) : rank * events :=
  (r, [(N.max t (earliest_pd p r), RI_pdpIn)]).

(* handlePowerDownPreExit: D4 253-278; D5 285-295; L4 220-230; L5 281-291;
   L6 269-279. *)
Definition h_pdpExit (p : memspec) (t : N) (r : rank) : rank * events :=
  (r, [(N.max t (earliest_pd p r), RI_pdpOut)]).

(* ------------------------------------------------------------------ *)
(* Execution of implicit commands                                      *)
(* ------------------------------------------------------------------ *)

(* Refresh end lambda: D4 120-131; D5 153-162; L4 119-128; L5 153-162;
   L6 151-160. *)
Definition x_refEnd (t : N) (b : nat) (r : rank) : rank :=
  close_if_idle t
    (rk_upd_bank b (fun k =>
       bk_set_act (iv_close t (bk_act k)) (bk_set_active false k)) r).

(* Self-refresh entry lambda: D4 180-185; D5 214-219; L4 150-155; L5 211-216;
   L6 209-214. *)
Definition x_sref (t : N) (r : rank) : rank :=
  rk_set_memState SREF
    (rk_set_sref (iv_start_at t (rk_sref r))
      (rk_set_n_sref (u64_inc (rk_n_sref r)) r)).

(* The loop over the banks in the power-down entry lambdas: D4 204-206, 244-246;
   D5 232-244; L4 168-180; L5 229-241; L6 227-237. *)
Definition close_banks (t : N) (r : rank) : rank :=
  rk_set_banks (map (fun k => bk_set_act (iv_close t (bk_act k)) k) (rk_banks r)) r.

(* Active power-down entry lambda: D4 198-207; D5 232-244; L4 168-180;
   L5 229-241; L6 227-237.  The `if (is_open())` guards of all but DDR4 repeat
   the guard inside close_interval. *)
Definition x_pdaIn (t : N) (r : rank) : rank :=
  close_banks t
    (rk_close_act t
      (rk_set_memState PDN_ACT (rk_set_pda (iv_start_at t (rk_pda r)) r))).

(* Test in the active power-down exit lambda of all standards but DDR4:
   D5 260; L4 196; L5 257; L6 251. *)
Definition resumes (r : rank) (k : bank) : bool :=
  negb (cs_act (bk_counter k) =? 0)
  && (iv_get_end (bk_act k) =? iv_get_start (rk_pda r)).

(* Active power-down exit lambda: D4 216-234; D5 252-270; L4 188-206;
   L5 249-267; L6 245-255. *)
Definition x_pdaOut (p : memspec) (t : N) (r : rank) : rank :=
  let r1 := rk_set_pda (iv_close t (rk_pda r)) (rk_set_memState NOT_IN_PD r) in
  match ms_std p with
  | DDR4 =>
      let r2 := rk_set_banks (map (fun k =>
                  if bk_active k then bk_set_act (iv_start_at t (bk_act k)) k else k)
                  (rk_banks r1)) r1 in
      if rank_is_active t r2 then rk_start_act t r2 else r2
  | LPDDR6 =>
      let r2 := rk_start_act t r1 in
      rk_set_banks (map (fun k =>
        if resumes r2 k then bk_set_act (iv_start_at t (bk_act k)) k else k)
        (rk_banks r2)) r2
  | _ =>
      let r2 := rk_set_banks (map (fun k =>
                  if resumes r1 k then bk_set_act (iv_start_at t (bk_act k)) k else k)
                  (rk_banks r1)) r1 in
      if existsb (resumes r1) (rk_banks r1) then rk_start_act t r2 else r2
  end.

(* Precharge power-down entry lambda: D4 242-250; D5 278-282; L4 213-217;
   L5 274-278; L6 262-266. *)
Definition x_pdpIn (p : memspec) (t : N) (r : rank) : rank :=
  match ms_std p with
  | DDR4 =>
      rk_close_act t
        (rk_set_pdp (iv_start_at t (rk_pdp r))
          (rk_set_memState PDN_PRE (close_banks t r)))
  | _ => rk_set_memState PDN_PRE (rk_set_pdp (iv_start_at t (rk_pdp r)) r)
  end.

(* Precharge power-down exit lambda: D4 259-277; D5 290-294; L4 225-229;
   L5 286-290; L6 274-278. *)
Definition x_pdpOut (p : memspec) (t : N) (r : rank) : rank :=
  let r1 := rk_set_pdp (iv_close t (rk_pdp r)) (rk_set_memState NOT_IN_PD r) in
  match ms_std p with
  | DDR4 =>
      rk_set_banks (map (fun k =>
        if bk_active k then bk_set_act (iv_start_at t (bk_act k)) k else k)
        (rk_banks r1)) r1
  | _ => r1
  end.

(* The call of a queued lambda: util/ImplicitCommandHandler.h 51-59; the lambdas
   are cited at ricmd. *)
Definition exec_ric (p : memspec) (t : N) (c : ricmd) (r : rank) : rank :=
  match c with
  | RI_pre b => h_pre t b r
  | RI_refEnd b => x_refEnd t b r
  | RI_sref => x_sref t r
  | RI_pdaIn => x_pdaIn t r
  | RI_pdaOut => x_pdaOut p t r
  | RI_pdpIn => x_pdpIn p t r
  | RI_pdpOut => x_pdpOut p t r
  end.

(* ------------------------------------------------------------------ *)
(* util/ImplicitCommandHandler.h                                       *)
(* ------------------------------------------------------------------ *)

(* Queue entries: the timestamp, the captured rank index, the lambda.
   std::pair<timestamp_t, std::function>: util/ImplicitCommandHandler.h 39-40. *)
Notation qentry := (N * (nat * ricmd))%type.

(* addImplicitCommand: util/ImplicitCommandHandler.h 16-26.  std::upper_bound
   finds the first entry with a larger timestamp (the queue is always sorted,
   proved as queue_sorted_reachable); written here as a linear scan. *)
Fixpoint q_insert {A} (ts : N) (x : A) (q : list (N * A)) : list (N * A) :=
  match q with
  | [] => [(ts, x)]
  | (ts', y) :: q' =>
      if ts <? ts' then (ts, x) :: q else (ts', y) :: q_insert ts x q'
  end.

(* The core object: m_ranks, m_implicitCommandHandler, m_last_command_time
   (e.g. standards/ddr4/DDR4Core.h). *)
Record core := mkCore {
  co_ranks : list rank;
  co_queue : list qentry;
  co_last : N
}.

(* Constructor of the cores: m_ranks(numberOfRanks, {numberOfBanks}), e.g.
   standards/ddr4/DDR4Core.h; last command time 0, empty queue. *)
Definition core_new (p : memspec) : core :=
  mkCore (repeat (rank_new (ms_banks p)) (ms_ranks p)) [] 0.

(* processImplicitCommandQueue: util/ImplicitCommandHandler.h 51-59, for any
   context (the template parameter) and any meaning [exec] of the queued
   functors.  The loop runs over the queue from the front; no lambda enqueues
   anything, so the loop is structural on the queue.  Returns the remaining
   queue, the context and last_command_time. *)
Fixpoint ich_process {A Ctx} (exec : N -> A -> Ctx -> Ctx) (t : N) (q : list (N * A))
  (ctx : Ctx) (last : N) : list (N * A) * Ctx * N :=
  match q with
  | [] => ([], ctx, last)
  | (ts, x) :: q' =>
      if ts <=? t then ich_process exec t q' (exec ts x ctx) ts
      else (q, ctx, last)
  end.

(* The context of the cores is the core itself; a queued lambda changes the
   captured rank. *)
(* util/ImplicitCommandHandler.h 51-59. *)
Definition exec_q (p : memspec) (ts : N) (x : nat * ricmd) (rs : list rank) : list rank :=
  upd (fst x) (exec_ric p ts (snd x)) rs.

(* With exec_q: util/ImplicitCommandHandler.h 51-59. *)
Definition process_queue (p : memspec) (t : N) (s : core) : core :=
  let '(q, rs, l) := ich_process (exec_q p) t (co_queue s) (co_ranks s) (co_last s) in
  mkCore rs q l.

(* Successive addImplicitCommand calls of one handler. *)
(* util/ImplicitCommandHandler.h 16-26. *)
Definition enqueue (r : nat) (evs : events) (q : list qentry) : list qentry :=
  fold_left (fun q e => q_insert (fst e) (r, snd e) q) evs q.

(* ------------------------------------------------------------------ *)
(* doCommand                                                           *)
(* ------------------------------------------------------------------ *)

(* What the switch in doCommand does for a command:
   - nothing (END_OF_SIMULATION, DDR5 also NOP);
   - the default branch `assert(false)`;
   - throw before touching a rank (LPDDR5 REFP2B in the 8-bank architecture);
   - call a handler on the addressed rank. *)
Inductive action :=
| A_none
| A_unsupported
| A_throw
| A_rank (f : rank -> outcome (rank * events)).

(* util/RegisterHelper.h: rankHandler 32-37, rankHandlerIdx 40-43 (the rank
   check is in do_command below). *)
Definition on_rank (f : rank -> rank * events) : action := A_rank (fun r => Ok (f r)).
(* A handler that queues nothing, as util/RegisterHelper.h 32-43 calls it. *)
Definition quiet (f : rank -> rank) (r : rank) : rank * events := (f r, []).
(* A handler with an assert that queues nothing, as util/RegisterHelper.h 32-43
   calls it. *)
Definition quiet_o (f : rank -> outcome rank) (r : rank) : outcome (rank * events) :=
  match f r with
  | Ok r' => Ok (r', [])
  | Throws r' => Throws (r', [])
  | Asserts => Asserts
  | Undefined => Undefined
  end.

(* util/RegisterHelper.h: bankHandler 13-21, bankHandlerIdx 24-29,
   bankGroupHandler 46-57, bankGroupHandlerIdx 60-71: all assert that the bank
   is in range. *)
Definition on_bank (b : nat) (f : rank -> rank * events) : action :=
  A_rank (fun r => if Nat.ltb b (length (rk_banks r)) then Ok (f r) else Asserts).

(* A bank-group command whose handler then indexes `ids` with operator[]:
   out-of-range there is undefined behaviour (D5 104, 119; L5 125). *)
Definition on_banks (b : nat) (ids : list nat) (f : rank -> rank * events) : action :=
  A_rank (fun r =>
    if Nat.ltb b (length (rk_banks r))
    then if forallb (fun i => Nat.ltb i (length (rk_banks r))) ids
         then Ok (f r) else Undefined
    else Asserts).

(* The switch: D4 11-59; D5 9-64; L4 9-60; L5 10-73; L6 12-73. *)
Definition dispatch (p : memspec) (c : Command) : action :=
  let t := cmd_ts c in
  let b := N.to_nat (cmd_bank c) in
  match cmd_type c with
  | ACT => on_bank b (quiet (h_act p b t))
  | PRE => on_bank b (quiet (h_pre t b))
  | PREA => on_rank (quiet (h_preAll t))
  | REFA => on_rank (h_refAll p t)
  | RD => on_bank b (quiet (h_rw K_reads b))
  | WR => on_bank b (quiet (h_rw K_writes b))
  | RDA => on_bank b (h_rwAuto p K_readAuto (ms_offRD p) b t)
  | WRA => on_bank b (h_rwAuto p K_writeAuto (ms_offWR p) b t)
  | SREFEN => on_rank (h_srefEntry p t)
  | SREFEX => A_rank (quiet_o (h_srefExit t))
  | PDEA => on_rank (h_pdaEntry p t)
  | PDXA => A_rank (h_pdaExit p t)
  | PDEP => on_rank (h_pdpEntry p t)
  | PDXP => on_rank (h_pdpExit p t)
  | PRESB =>
      match ms_std p with
      | DDR5 => match ms_banksPerGroup p with
                | O => A_rank (fun r => if Nat.ltb b (length (rk_banks r))
                                        then Undefined else Asserts)
                | _ => on_banks b (same_bank_ids p b) (quiet (h_preSame p b t))
                end
      | _ => A_unsupported
      end
  | REFSB =>
      match ms_std p with
      | DDR5 => match ms_banksPerGroup p with
                | O => A_rank (fun r => if Nat.ltb b (length (rk_banks r))
                                        then Undefined else Asserts)
                | _ => on_banks b (same_bank_ids p b) (h_refSame p b t)
                end
      | _ => A_unsupported
      end
  | REFB =>
      match ms_std p with
      | LPDDR4 | LPDDR5 => on_bank b (h_refPerBank p b t)
      | _ => A_unsupported
      end
  | REFP2B =>
      match ms_std p with
      | LPDDR5 => if ms_m8b p then A_throw
                  else on_banks b [p2b_second p b] (h_refTwoBanks p b t)
      | _ => A_unsupported
      end
  | REFDB =>
      (* L6 34-46: both banks are asserted in range *)
      match ms_std p with
      | LPDDR6 =>
          let d := N.to_nat (cmd_dbank c) in
          A_rank (fun r => if Nat.ltb b (length (rk_banks r))
                              && Nat.ltb d (length (rk_banks r))
                           then Ok (h_refDual p b d t r) else Asserts)
      | _ => A_unsupported
      end
  | DSMEN =>
      match ms_std p with LPDDR5 => A_rank (quiet_o (h_dsmEntry t)) | _ => A_unsupported end
  | DSMEX =>
      match ms_std p with LPDDR5 => A_rank (quiet_o (h_dsmExit t)) | _ => A_unsupported end
  | NOP => match ms_std p with DDR5 => A_none | _ => A_unsupported end
  | END_OF_SIMULATION => A_none
  | COUNT => A_unsupported
  end.

(* doCommand: D4 8-60; D5 6-65; L4 6-61; L5 7-74; L6 9-74. *)
Definition do_command (p : memspec) (c : Command) (s : core) : outcome core :=
  let s1 := process_queue p (cmd_ts c) s in
  let s2 := mkCore (co_ranks s1) (co_queue s1) (N.max (cmd_ts c) (co_last s1)) in
  match dispatch p c with
  | A_none => Ok s2
  | A_unsupported => Asserts
  | A_throw => Throws s2
  | A_rank f =>
      let r := N.to_nat (cmd_rank c) in
      match nth_error (co_ranks s2) r with
      | None => Asserts
      | Some rk =>
          match f rk with
          | Ok (rk', evs) =>
              Ok (mkCore (upd r (fun _ => rk') (co_ranks s2))
                         (enqueue r evs (co_queue s2)) (co_last s2))
          | Throws (rk', evs) =>
              Throws (mkCore (upd r (fun _ => rk') (co_ranks s2))
                             (enqueue r evs (co_queue s2)) (co_last s2))
          | Asserts => Asserts
          | Undefined => Undefined
          end
      end
  end.

(* getLastCommandTime: D4 62-64; D5 67-69; L4 63-65; L5 76-78; L6 76-78. *)
Definition get_last_command_time (s : core) : N := co_last s.

(* isSerializable: D4 66-68; D5 71-73; L4 67-69; L5 80-82; L6 80-82. *)
Definition is_serializable (s : core) : bool :=
  match co_queue s with [] => true | _ => false end.

(* A caller feeding commands until the first one that does not return. *)
(* doCoreInterfaceCommand called in a loop, as in
   src/cli/lib/DRAMPower/cli/run.cpp 280-290. *)
Fixpoint run_core (p : memspec) (cs : list Command) (s : core) : outcome core :=
  match cs with
  | [] => Ok s
  | c :: cs' => match do_command p c s with
                | Ok s' => run_core p cs' s'
                | o => o
                end
  end.

(* ------------------------------------------------------------------ *)
(* getWindowStats                                                      *)
(* ------------------------------------------------------------------ *)

(* cycles_t: data/stats.h 88-94. *)
Record cycles := mkCycles {
  cy_act : N; cy_pre : N; cy_pda : N; cy_pdp : N; cy_sref : N; cy_dsm : N
}.

(* `simulation_duration - (act + powerDownAct + powerDownPre + sref)`:
   D4 314-318, 324-330; D5 332-336, 339-343; L4 311-322; L5 344-355; L6 319-330. *)
Definition pre_cycles (t act : N) (r : rank) : N :=
  u64_sub t (u64_add (u64_add (u64_add act (iv_count_at t (rk_pda r)))
                              (iv_count_at t (rk_pdp r)))
                     (iv_count_at t (rk_sref r))).

(* stats.bank[..].cycles.selfRefresh / deepSleepMode: D4 308-309 and D5 326-327
   report the whole self-refresh time and leave deepSleepMode 0; L4 302-306,
   L5 335-339, L6 310-314 subtract the deep-sleep time. *)
Definition bank_sref (p : memspec) (t : N) (r : rank) : N :=
  match ms_std p with
  | DDR4 | DDR5 => iv_count_at t (rk_sref r)
  | _ => u64_sub (iv_count_at t (rk_sref r)) (iv_count_at t (rk_dsm r))
  end.
(* With bank_sref: stats.bank[..].cycles.selfRefresh / deepSleepMode: D4 308-309
   and D5 326-327 report the whole self-refresh time and leave deepSleepMode 0; L4
   302-306, L5 335-339, L6 310-314 subtract the deep-sleep time. *)
Definition bank_dsm (p : memspec) (t : N) (r : rank) : N :=
  match ms_std p with
  | DDR4 | DDR5 => 0
  | _ => iv_count_at t (rk_dsm r)
  end.

(* stats.rank_total[i].cycles.selfRefresh / deepSleepMode: D4 323; D5 349-351;
   L4 329; L5 362-366; L6 337-341. *)
Definition rank_sref (p : memspec) (t : N) (r : rank) : N :=
  match ms_std p with
  | DDR4 | DDR5 | LPDDR4 => iv_count_at t (rk_sref r)
  | _ => u64_sub (iv_count_at t (rk_sref r)) (iv_count_at t (rk_dsm r))
  end.
(* With rank_sref: stats.rank_total[i].cycles.selfRefresh / deepSleepMode: D4 323;
   D5 349-351; L4 329; L5 362-366; L6 337-341. *)
Definition rank_dsm (p : memspec) (t : N) (r : rank) : N :=
  match ms_std p with
  | DDR4 | LPDDR4 => 0
  | _ => iv_count_at t (rk_dsm r)
  end.

(* CycleStats of a bank, counter and cycles: data/stats.h 185-189. *)
Record bank_stats := mkBankStats { bs_counter : cstats; bs_cycles : cycles }.

(* Loop body over the banks: D4 304-319; D5 322-337; L4 298-316; L5 331-349;
   L6 306-324. *)
Definition bank_window (p : memspec) (t : N) (r : rank) (k : bank) : bank_stats :=
  let act := iv_count_at t (bk_act k) in
  mkBankStats (bk_counter k)
    (mkCycles act (pre_cycles t act r) (iv_count_at t (rk_pda r))
              (iv_count_at t (rk_pdp r)) (bank_sref p t r) (bank_dsm p t r)).

(* Rank part: D4 320-330; D5 339-351; L4 318-329; L5 351-366; L6 326-341. *)
Definition rank_window (p : memspec) (t : N) (r : rank) : cycles :=
  let act := iv_count_at t (rk_act r) in
  mkCycles act (pre_cycles t act r) (iv_count_at t (rk_pda r))
           (iv_count_at t (rk_pdp r)) (rank_sref p t r) (rank_dsm p t r).

(* The part of SimulationStats the cores fill: `bank` (ranks times banks, index
   rank * numberOfBanks + bank) and `rank_total`. *)
(* data/stats.h 243-244. *)
Record core_stats := mkCoreStats {
  st_bank : list bank_stats;
  st_rank : list cycles
}.

(* getWindowStats: D4 294-333; D5 312-353; L4 288-331; L5 321-368; L6 296-343.
   It drains the implicit queue, so it also returns the new core. *)
Definition window_stats (p : memspec) (t : N) (s : core) : core * core_stats :=
  let s1 := process_queue p t s in
  (s1, mkCoreStats
         (flat_map (fun r => map (bank_window p t r) (rk_banks r)) (co_ranks s1))
         (map (rank_window p t) (co_ranks s1))).
