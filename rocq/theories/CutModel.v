(* Reading a core from a stream that breaks off.  Models what the deserialize members
   of a core do when std::istream::read finds no more bytes: read sets eofbit and
   failbit and stores nothing, every later read finds the stream in that state and
   stores nothing either, and none of the members looks at the state of the stream.
   Paths are under src/DRAMPower/DRAMPower.

   Simplification: the stream breaks off between two values, not inside one (there
   the bytes that are left would be stored over part of the old value, and what that
   is depends on the compiler's layout). *)
From Coq Require Import NArith List Bool.
From Verif Require Import Base Command CoreModel SerialModel.
Import ListNotations.
Local Open Scope N_scope.

(* stream.read into a std::uint64_t or timestamp_t that holds [old]: e.g.
   util/cycle_stats.h 92. *)
Definition l_u64 (old : N) : reader N :=
  fun s => match s with [] => Got old [] | I_u64 n :: r => Got n r | _ => Mismatch end.
(* stream.read into a MemState that holds [old]: dram/Rank.cpp 46. *)
Definition l_mem (old : memState) : reader memState :=
  fun s => match s with [] => Got old [] | I_mem m :: r => Got m r | _ => Mismatch end.
(* stream.read into a BankState that holds [old]: dram/Bank.h 43. *)
Definition l_bankstate (old : bool) : reader bool :=
  fun s => match s with [] => Got old [] | I_bank b :: r => Got b r | _ => Mismatch end.
(* `bool starthasValue = false; stream.read(...)`: util/cycle_stats.h 93-94, 100-101. *)
Definition l_flag : reader bool :=
  fun s => match s with [] => Got false [] | I_bool b :: r => Got b r | _ => Mismatch end.
(* The value of a std::optional that holds [old], read over it as a whole:
   util/cycle_stats.h 96, 103. *)
Definition l_opt (old : option N) : reader (option N) :=
  fun s => match s with [] => Got old [] | I_opt n :: r => Got (Some n) r | _ => Mismatch end.
(* The flag, then the value or reset(): util/cycle_stats.h 93-99, 100-105. *)
Definition l_optional (old : option N) : reader (option N) :=
  b <~ l_flag ;; if b : bool then l_opt old else r_ret None.
(* interval_counter::deserialize: util/cycle_stats.h 91-106. *)
Definition l_interval (old : interval) : reader interval :=
  c <~ l_u64 (iv_count old) ;; s <~ l_optional (iv_start old) ;; e <~ l_optional (iv_end old) ;; r_ret (mkInterval c s e).
(* command_stats_t::deserialize: data/stats.h 41-53. *)
Definition l_cstats (old : cstats) : reader cstats :=
  a <~ l_u64 (cs_act old) ;; p <~ l_u64 (cs_pre old) ;; r <~ l_u64 (cs_reads old) ;; w <~ l_u64 (cs_writes old) ;;
  ra <~ l_u64 (cs_refAllBank old) ;; rp <~ l_u64 (cs_refPerBank old) ;; r2 <~ l_u64 (cs_refPerTwoBanks old) ;;
  rd <~ l_u64 (cs_refDualBanks old) ;; rs <~ l_u64 (cs_refSameBank old) ;; ru <~ l_u64 (cs_readAuto old) ;;
  wu <~ l_u64 (cs_writeAuto old) ;; r_ret (mkCstats a p r w ra rp r2 rd rs ru wu).
(* Bank::deserialize: dram/Bank.h 42-50. *)
Definition l_bank (old : bank) : reader bank :=
  s <~ l_bankstate (bk_active old) ;; lp <~ l_u64 (bk_latestPre old) ;; re <~ l_u64 (bk_refreshEnd old) ;;
  a <~ l_interval (bk_act old) ;; pa <~ l_interval (bk_pda old) ;; pp <~ l_interval (bk_pdp old) ;;
  c <~ l_cstats (bk_counter old) ;; r_ret (mkBank c a pa pp s lp re).
(* Rank::deserialize: dram/Rank.cpp 45-63; endRefreshTime is read twice. *)
Definition l_rank (old : rank) : reader rank :=
  m <~ l_mem (rk_memState old) ;; er <~ l_u64 (rk_endRefresh old) ;; ns <~ l_u64 (rk_n_sref old) ;; nd <~ l_u64 (rk_n_dsm old) ;;
  er <~ l_u64 er ;;
  p <~ l_interval (rk_pre old) ;; a <~ l_interval (rk_act old) ;; rf <~ l_interval (rk_ref old) ;; sr <~ l_interval (rk_sref old) ;;
  pa <~ l_interval (rk_pda old) ;; pp <~ l_interval (rk_pdp old) ;; ds <~ l_interval (rk_dsm old) ;;
  bs <~ r_each l_bank (rk_banks old) ;; r_ret (mkRank m p a rf sr pa pp ds ns nd er bs).
(* The cores: standards/ddr4/DDR4Core.cpp 343-349; ddr5/DDR5Core.cpp 362-367;
   lpddr4/LPDDR4Core.cpp 340-345; lpddr5/LPDDR5Core.cpp 376-381;
   lpddr6/LPDDR6Core.cpp 351-356. *)
Definition l_core (old : core) : reader core :=
  l <~ l_u64 (co_last old) ;; rs <~ r_each l_rank (co_ranks old) ;; r_ret (mkCore rs (co_queue old) l).
