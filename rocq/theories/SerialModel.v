(* Serialization of a core and of an interface.  Models the serialize and
   deserialize members of dram/Rank.cpp, dram/Bank.h, dram/Interface.cpp,
   data/stats.h, util/*.h, command/Pattern.h and standards/*/*Core.cpp and
   *Interface.cpp under src/DRAMPower/DRAMPower.

   A stream is the list of the values passed to std::ostream::write, one item per
   call, each tagged with its C++ type; the layout in bytes (widths, endianness,
   padding) comes in with ByteModel.  Reading a value with another type than it was
   written with, or past the end, is the outcome Mismatch, of which nothing is
   claimed.  The one place where the code itself reads with another type - the
   bytes of m_lastbeat are read into a bool - is modelled: a byte that is neither
   0 nor 1 in a bool is undefined behaviour.

   deserialize overwrites the members of an existing object; the first argument
   of a reader below is that object. *)
From Coq Require Import NArith QArith List Bool.
From Verif Require Import Base Command CoreModel Bits BusModel ToggleModel PinModel DbiModel DbiPinModel PatternModel InterfaceModel.
Import ListNotations.
Local Open Scope N_scope.

(* ---- the stream ---- *)

(* What one call of write passes; I_opt is an engaged std::optional written as
   raw memory, I_raw a std::bitset<max> written as raw memory, I_bytes an array of
   bytes. *)
(* The calls are cited at the writers below, e.g. util/cycle_stats.h 78-88. *)
Inductive item :=
| I_bool (b : bool) | I_u8 (n : N) | I_u16 (n : N) | I_u64 (n : N) | I_double (q : Q)
| I_opt (n : N) | I_raw (max : nat) (n : N) | I_bytes (l : list N)
| I_mem (m : memState) | I_bank (active : bool) | I_pin (s : pin_state) | I_idle (i : toggle_idle) | I_mode (m : bus_mode)
| I_desc (d : desc) | I_spec (s : bit_spec).
(* Outcome of reading: a value and the rest of the stream. *)
(* util/cycle_stats.h 93-105 and the other deserialize members cited below. *)
Inductive parsed (A : Type) : Type :=
| Got (a : A) (rest : list item)
| Mismatch
| BadBool.
Arguments Got {A} a rest.
Arguments Mismatch {A}.
Arguments BadBool {A}.
(* A sequence of read calls; not a type of the source. *)
(* util/Deserialize.h 56. *)
Definition reader (A : Type) := list item -> parsed A.
(* The end of a sequence of read calls: util/Deserialize.h 56. *)
Definition r_ret {A} (a : A) : reader A := fun s => Got a s.
(* Two read calls in sequence: util/Deserialize.h 56. *)
Definition r_bind {A B} (r : reader A) (k : A -> reader B) : reader B :=
  fun s => match r s with Got a rest => k a rest | Mismatch => Mismatch | BadBool => BadBool end.
(* Notation for r_bind: util/Deserialize.h 56. *)
Notation "x <~ r ;; k" := (r_bind r (fun x => k)) (at level 60, r at next level, right associativity).
(* Single calls of read. *)
(* E.g. util/cycle_stats.h 93-105. *)
Definition r_bool : reader bool := fun s => match s with I_bool b :: r => Got b r | _ => Mismatch end.
(* read of a uint8_t: util/dbi.h 132-144. *)
Definition r_u8 : reader N := fun s => match s with I_u8 n :: r => Got n r | _ => Mismatch end.
(* read of a uint16_t: util/extensions.cpp 48-60. *)
Definition r_u16 : reader N := fun s => match s with I_u16 n :: r => Got n r | _ => Mismatch end.
(* read of a uint64_t: e.g. util/cycle_stats.h 92. *)
Definition r_u64 : reader N := fun s => match s with I_u64 n :: r => Got n r | _ => Mismatch end.
(* read of a double: dram/Interface.cpp 212-224. *)
Definition r_double : reader Q := fun s => match s with I_double q :: r => Got q r | _ => Mismatch end.
(* read into a std::optional: util/cycle_stats.h 93-105. *)
Definition r_opt : reader N := fun s => match s with I_opt n :: r => Got n r | _ => Mismatch end.
(* read into a std::bitset<max>: util/bus.h 270-278. *)
Definition r_raw (max : nat) : reader N :=
  fun s => match s with I_raw m n :: r => if Nat.eqb m max then Got n r else Mismatch | _ => Mismatch end.
(* read of an array of bytes: util/burst_storage.h 318-328. *)
Definition r_bytes (len : nat) : reader (list N) :=
  fun s => match s with I_bytes l :: r => if Nat.eqb (length l) len then Got l r else Mismatch | _ => Mismatch end.
(* read of a MemState: dram/Rank.cpp 45-63. *)
Definition r_mem : reader memState := fun s => match s with I_mem m :: r => Got m r | _ => Mismatch end.
(* read of a BankState: dram/Bank.h 42-50. *)
Definition r_bankstate : reader bool := fun s => match s with I_bank b :: r => Got b r | _ => Mismatch end.
(* read of a PinState: util/pin.h 208-215. *)
Definition r_pinstate : reader pin_state := fun s => match s with I_pin p :: r => Got p r | _ => Mismatch end.
(* read of a TogglingRateIdlePattern: dram/Interface.cpp 212-224. *)
Definition r_idle : reader toggle_idle := fun s => match s with I_idle i :: r => Got i r | _ => Mismatch end.
(* read of a BusMode: util/databus.h 173-179. *)
Definition r_mode : reader bus_mode := fun s => match s with I_mode m :: r => Got m r | _ => Mismatch end.
(* read of a pattern descriptor: command/Pattern.h 170-179. *)
Definition r_desc : reader desc := fun s => match s with I_desc d :: r => Got d r | _ => Mismatch end.
(* read of a PatternEncoderBitSpec: command/Pattern.h 170-179. *)
Definition r_spec : reader bit_spec := fun s => match s with I_spec b :: r => Got b r | _ => Mismatch end.
(* `bool entry; stream.read(&entry, sizeof(entry))` where a uint8_t was written:
   util/dbi.h 139-141. *)
Definition r_u8_as_bool : reader N :=
  fun s => match s with I_u8 n :: r => if n <=? 1 then Got n r else BadBool | _ => Mismatch end.
(* A std::size_t. *)
(* util/burst_storage.h 307-317. *)
Definition w_size (n : nat) : list item := [I_u64 (N.of_nat n)].
(* read of a std::size_t: util/burst_storage.h 318-328. *)
Definition r_size : reader nat := n <~ r_u64 ;; r_ret (N.to_nat n).
(* `for (auto& x : xs) x.deserialize(stream)`. *)
(* dram/Rank.cpp 60-62; standards/ddr4/DDR4Core.cpp 346-348. *)
Fixpoint r_each {A} (r : A -> reader A) (targets : list A) : reader (list A) :=
  match targets with
  | [] => r_ret []
  | x :: xs => y <~ r x ;; ys <~ r_each r xs ;; r_ret (y :: ys)
  end.
(* `for (i = 0; i < n; ++i) { read; push_back; }`. *)
Fixpoint r_times {A} (r : reader A) (n : nat) : reader (list A) :=
  match n with
  | O => r_ret []
  | S n => y <~ r ;; ys <~ r_times r n ;; r_ret (y :: ys)
  end.

(* ---- the core ---- *)

(* The flag and, if set, the raw std::optional: util/cycle_stats.h 80-88, 93-105;
   util/clock.h 78-82, 88-95. *)
Definition w_optional (o : option N) : list item :=
  match o with Some n => [I_bool true; I_opt n] | None => [I_bool false] end.
(* With w_optional: The flag and, if set, the raw std::optional:
   util/cycle_stats.h 80-88, 93-105; util/clock.h 78-82, 88-95. *)
Definition r_optional : reader (option N) :=
  b <~ r_bool ;; if b : bool then n <~ r_opt ;; r_ret (Some n) else r_ret None.
(* interval_counter: util/cycle_stats.h 78-106. *)
Definition w_interval (i : interval) : list item :=
  [I_u64 (iv_count i)] ++ w_optional (iv_start i) ++ w_optional (iv_end i).
(* With w_interval: interval_counter: util/cycle_stats.h 78-106. *)
Definition r_interval : reader interval :=
  c <~ r_u64 ;; s <~ r_optional ;; e <~ r_optional ;; r_ret (mkInterval c s e).
(* command_stats_t: data/stats.h 28-53. *)
Definition w_cstats (c : cstats) : list item :=
  map I_u64 [cs_act c; cs_pre c; cs_reads c; cs_writes c; cs_refAllBank c; cs_refPerBank c; cs_refPerTwoBanks c;
             cs_refDualBanks c; cs_refSameBank c; cs_readAuto c; cs_writeAuto c].
(* With w_cstats: command_stats_t: data/stats.h 28-53. *)
Definition r_cstats : reader cstats :=
  a <~ r_u64 ;; p <~ r_u64 ;; r <~ r_u64 ;; w <~ r_u64 ;; ra <~ r_u64 ;; rp <~ r_u64 ;; r2 <~ r_u64 ;; rd <~ r_u64 ;;
  rs <~ r_u64 ;; ru <~ r_u64 ;; wu <~ r_u64 ;; r_ret (mkCstats a p r w ra rp r2 rd rs ru wu).
(* Bank: dram/Bank.h 33-50. *)
Definition w_bank (b : bank) : list item :=
  [I_bank (bk_active b); I_u64 (bk_latestPre b); I_u64 (bk_refreshEnd b)] ++
  w_interval (bk_act b) ++ w_interval (bk_pda b) ++ w_interval (bk_pdp b) ++ w_cstats (bk_counter b).
(* With w_bank: Bank: dram/Bank.h 33-50. *)
Definition r_bank (_ : bank) : reader bank :=
  s <~ r_bankstate ;; lp <~ r_u64 ;; re <~ r_u64 ;; a <~ r_interval ;; pa <~ r_interval ;; pp <~ r_interval ;; c <~ r_cstats ;;
  r_ret (mkBank c a pa pp s lp re).
(* Rank: dram/Rank.cpp 25-63; endRefreshTime is written and read twice. *)
Definition w_rank (r : rank) : list item :=
  [I_mem (rk_memState r); I_u64 (rk_endRefresh r); I_u64 (rk_n_sref r); I_u64 (rk_n_dsm r); I_u64 (rk_endRefresh r)] ++
  w_interval (rk_pre r) ++ w_interval (rk_act r) ++ w_interval (rk_ref r) ++ w_interval (rk_sref r) ++
  w_interval (rk_pda r) ++ w_interval (rk_pdp r) ++ w_interval (rk_dsm r) ++ flat_map w_bank (rk_banks r).
(* With w_rank: Rank: dram/Rank.cpp 25-63; endRefreshTime is written and read
   twice. *)
Definition r_rank (target : rank) : reader rank :=
  m <~ r_mem ;; _ <~ r_u64 ;; ns <~ r_u64 ;; nd <~ r_u64 ;; er <~ r_u64 ;;
  p <~ r_interval ;; a <~ r_interval ;; rf <~ r_interval ;; sr <~ r_interval ;; pa <~ r_interval ;; pp <~ r_interval ;;
  ds <~ r_interval ;; bs <~ r_each r_bank (rk_banks target) ;;
  r_ret (mkRank m p a rf sr pa pp ds ns nd er bs).
(* The cores: standards/ddr4/DDR4Core.cpp 335-349; ddr5/DDR5Core.cpp 355-367;
   lpddr4/LPDDR4Core.cpp 333-345; lpddr5/LPDDR5Core.cpp 370-381;
   lpddr6/LPDDR6Core.cpp 345-356.  The implicit commands are not written, and the
   target keeps its own. *)
Definition w_core (s : core) : list item := [I_u64 (co_last s)] ++ flat_map w_rank (co_ranks s).
(* With w_core: The cores: standards/ddr4/DDR4Core.cpp 335-349; ddr5/DDR5Core.cpp
   355-367; lpddr4/LPDDR4Core.cpp 333-345; lpddr5/LPDDR5Core.cpp 370-381;
   lpddr6/LPDDR6Core.cpp 345-356.  The implicit commands are not written, and the
   target keeps its own. *)
Definition r_core (target : core) : reader core :=
  l <~ r_u64 ;; rs <~ r_each r_rank (co_ranks target) ;; r_ret (mkCore rs (co_queue target) l).

(* ---- the parts of an interface ---- *)

(* bus_stats_t: util/bus_types.h 56-69. *)
Definition w_stats (s : bus_stats) : list item := map I_u64 [ones s; zeroes s; changes s; o2z s; z2o s].
(* With w_stats: bus_stats_t: util/bus_types.h 56-69. *)
Definition r_stats : reader bus_stats :=
  a <~ r_u64 ;; b <~ r_u64 ;; c <~ r_u64 ;; d <~ r_u64 ;; e <~ r_u64 ;; r_ret (mkStats a b c d e).
(* PendingStats<bus_stats_t>: util/pending_stats.h 59-70. *)
Definition w_pending (p : pending) : list item := [I_u64 (pd_time p)] ++ w_stats (pd_stats p) ++ [I_bool (pd_set p)].
(* With w_pending: PendingStats<bus_stats_t>: util/pending_stats.h 59-70. *)
Definition r_pending : reader pending :=
  t <~ r_u64 ;; s <~ r_stats ;; b <~ r_bool ;; r_ret (mkPending t s b).
(* Clock: util/clock.h 76-97; the data rate stays. *)
Definition w_clock (c : clock) : list item := w_optional (ck_start c) ++ w_stats (ck_stats c).
(* With w_clock: Clock: util/clock.h 76-97; the data rate stays. *)
Definition r_clock (target : clock) : reader clock :=
  o <~ r_optional ;; s <~ r_stats ;; r_ret (mkClock o s (ck_rate target)).

(* The byte i of a std::bitset<max>: util/burst_storage.h 166-173, 287-294. *)
Definition byte_of (max : nat) (v : N) (i : nat) : N :=
  fold_left (fun w j => if Nat.ltb (i * 8 + j) max && N.testbit v (N.of_nat (i * 8 + j)) then N.lor w (N.shiftl 1 (N.of_nat j)) else w)
            (seq 0 8) 0.
(* With byte_of: The byte i of a std::bitset<max>: util/burst_storage.h 166-173,
   287-294. *)
Definition bytes_of (max : nat) (v : N) : list N := map (byte_of max v) (seq 0 (Nat.div (max + 7) 8)).
(* Setting every bit from the bytes: util/burst_storage.h 182-186, 300-304;
   [v] is what the bitset held before. *)
Definition bits_from (max : nat) (l : list N) (v : N) : N :=
  fold_left (fun v i => fold_left (fun v j => if Nat.ltb (i * 8 + j) max
                                              then put_bit v (i * 8 + j) (N.testbit (nth i l 0) (N.of_nat j)) else v)
                                  (seq 0 8) v)
            (seq 0 (length l)) v.
(* deserializeBurst: util/burst_storage.h 297-305. *)
Definition r_burst (max : nat) (v : N) : reader N :=
  l <~ r_bytes (Nat.div (max + 7) 8) ;; r_ret (bits_from max l v).
(* BusContainer: util/burst_storage.h 307-328; resize after clear leaves zeroes. *)
Definition w_container (max : nat) (c : container) : list item :=
  w_size (bc_count c) ++ [I_u64 (bc_load c)] ++ w_size (length (bc_bursts c)) ++ map (fun b => I_bytes (bytes_of max b)) (bc_bursts c).
(* With w_container: BusContainer: util/burst_storage.h 307-328; resize after
   clear leaves zeroes. *)
Definition r_container (max : nat) (target : container) : reader container :=
  n <~ r_size ;; t <~ r_u64 ;; k <~ r_size ;; bs <~ r_times (r_burst max 0) k ;;
  r_ret (mkContainer bs (bc_width target) n t).
(* Bus: util/bus.h 260-278; width, data rate and idle pattern stay. *)
Definition w_bus (b : bus) : list item :=
  w_stats (b_stats b) ++ w_container (b_max b) (b_store b) ++
  [I_u64 (b_last_load b); I_bool (b_enabled b); I_u64 (b_disabled_at b); I_raw (b_max b) (b_last b)] ++ w_pending (b_pending b).
(* With w_bus: Bus: util/bus.h 260-278; width, data rate and idle pattern stay. *)
Definition r_bus (target : bus) : reader bus :=
  s <~ r_stats ;; c <~ r_container (b_max target) (b_store target) ;; ll <~ r_u64 ;; e <~ r_bool ;; d <~ r_u64 ;; l <~ r_raw (b_max target) ;;
  p <~ r_pending ;;
  r_ret (mkBus (b_max target) s c ll e d (b_width target) (b_datarate target) p l (b_idle_stats target) (b_idle target)).
(* TogglingHandle: dram/Interface.cpp 8-19, 200-224. *)
Definition w_toggling (h : toggling) : list item :=
  [I_u64 (tg_width h); I_u64 (tg_datarate h); I_double (tg_rate h); I_double (tg_duty h);
   I_u64 (lb_length h); I_u64 (lb_load h); I_bool (lb_handled h);
   I_bool (tg_enabled h); I_u64 (tg_count h); I_u64 (tg_disabled_at h); I_u64 (tg_disable_time h); I_idle (tg_idle h)].
(* With w_toggling: TogglingHandle: dram/Interface.cpp 8-19, 200-224. *)
Definition r_toggling : reader toggling :=
  w <~ r_u64 ;; dr <~ r_u64 ;; r <~ r_double ;; du <~ r_double ;; len <~ r_u64 ;; ld <~ r_u64 ;; h <~ r_bool ;;
  e <~ r_bool ;; c <~ r_u64 ;; da <~ r_u64 ;; dt <~ r_u64 ;; i <~ r_idle ;;
  r_ret (mkToggling w dr r du len ld h e c da dt i).
(* DataBus: util/databus.h 165-179. *)
Definition w_data (d : data_bus) : list item :=
  w_bus (d_read d) ++ w_bus (d_write d) ++ w_toggling (d_tread d) ++ w_toggling (d_twrite d) ++ [I_mode (d_mode d)].
(* With w_data: DataBus: util/databus.h 165-179. *)
Definition r_data (target : data_bus) : reader data_bus :=
  r <~ r_bus (d_read target) ;; w <~ r_bus (d_write target) ;; tr <~ r_toggling ;; tw <~ r_toggling ;; m <~ r_mode ;;
  r_ret (mkDataBus r w tr tw m).
(* BitsetContainer: util/burst_storage.h 162-187. *)
Definition w_bitstore (max : nat) (s : bit_store) : list item :=
  w_size (bt_count s) ++ [I_u64 (bt_load s); I_bytes (bytes_of max (bt_bits s))].
(* With w_bitstore: BitsetContainer: util/burst_storage.h 162-187. *)
Definition r_bitstore (max : nat) (target : bit_store) : reader bit_store :=
  n <~ r_size ;; t <~ r_u64 ;; b <~ r_burst max (bt_bits target) ;; r_ret (mkBitStore b n t).
(* Pin: util/pin.h 23-30, 200-215; the idle state stays. *)
Definition w_pin (p : pin) : list item :=
  [I_pin (pn_state p); I_u64 (pn_set_at p); I_bool (pn_init p)] ++ w_bitstore (pn_max p) (pn_store p) ++
  [I_u64 (pn_pend_time p); I_pin (pn_pend_from p); I_pin (pn_pend_to p); I_bool (pn_pend_set p)] ++ w_stats (pn_stats p).
(* With w_pin: Pin: util/pin.h 23-30, 200-215; the idle state stays. *)
Definition r_pin (target : pin) : reader pin :=
  st <~ r_pinstate ;; sa <~ r_u64 ;; i <~ r_bool ;; s <~ r_bitstore (pn_max target) (pn_store target) ;;
  t <~ r_u64 ;; f <~ r_pinstate ;; o <~ r_pinstate ;; e <~ r_bool ;; k <~ r_stats ;;
  r_ret (mkPin (pn_max target) t f o e k st (pn_idle target) i sa s).
(* LastBurst_t: util/dbi.h 102-144; m_n_bits is 0, as nothing assigns it.
   clear keeps the capacity; reserve grows it if need be, to the same capacity as
   resize does in DbiModel. *)
Definition w_lastburst (b : lastburst) : list item :=
  [I_u64 (lb_start b); I_u64 (lb_end b)] ++ w_size (lb_chunks b) ++ [I_u64 0; I_bool (lb_init b)] ++
  w_size (length (lb_inv b)) ++ map I_bool (lb_inv b) ++ w_size (length (lb_beat b)) ++ map I_u8 (lb_beat b).
(* With w_lastburst: LastBurst_t: util/dbi.h 102-144; m_n_bits is read and not
   used.  clear keeps the capacity; reserve grows it if need be, to the same
   capacity as resize does in DbiModel. *)
Definition r_lastburst (c : dbi_config) (target : lastburst) : reader lastburst :=
  s <~ r_u64 ;; e <~ r_u64 ;; k <~ r_size ;; _ <~ r_u64 ;; i <~ r_bool ;;
  n <~ r_size ;; inv <~ r_times r_bool n ;; m <~ r_size ;; beat <~ r_times r_u8_as_bool m ;;
  r_ret (mkLast s e k i inv (if Nat.ltb (lb_cap target) n then dg_grow c n else lb_cap target) beat).
(* DBI: util/dbi.h 319-348. *)
Definition w_dbi (d : dbi) : list item :=
  [I_bool (db_enable d); I_bool (db_last_read d)] ++ w_lastburst (db_read d) ++ w_lastburst (db_write d) ++
  w_size (length (db_data d)) ++ map I_u8 (db_data d).
(* With w_dbi: DBI: util/dbi.h 319-348. *)
Definition r_dbi (target : dbi) : reader dbi :=
  let c := db_config target in
  e <~ r_bool ;; l <~ r_bool ;; r <~ r_lastburst c (db_read target) ;; w <~ r_lastburst c (db_write target) ;;
  n <~ r_size ;; d <~ r_times r_u8 n ;;
  r_ret (mkDbi c e r w l d).
(* RankInterface: dram/Rank.cpp 66-85. *)
Definition w_rank_if (r : rank_if) : list item :=
  map I_u64 [ri_rs r; ri_ws r; ri_rm r; ri_wm r; ri_rmt r; ri_wmt r; ri_rend r; ri_wend r].
(* With w_rank_if: RankInterface: dram/Rank.cpp 66-85. *)
Definition r_rank_if (_ : rank_if) : reader rank_if :=
  a <~ r_u64 ;; b <~ r_u64 ;; c <~ r_u64 ;; d <~ r_u64 ;; e <~ r_u64 ;; f <~ r_u64 ;; g <~ r_u64 ;; h <~ r_u64 ;;
  r_ret (mkRankIf a b c d e f g h).

(* The settings of an encoder: command/Pattern.h 158-163, 170-179.  The order in
   which a std::unordered_map is traversed is unspecified: [order] is that order. *)
Definition w_settings (order : overrides) : list item :=
  w_size (length order) ++ flat_map (fun e => [I_desc (fst e); I_spec (snd e)]) order.
(* With w_settings: The settings of an encoder: command/Pattern.h 158-163,
   170-179.  The order in which a std::unordered_map is traversed is unspecified:
   [order] is that order. *)
Definition r_entry : reader (desc * bit_spec) := d <~ r_desc ;; s <~ r_spec ;; r_ret (d, s).
(* With w_settings: The settings of an encoder: command/Pattern.h 158-163,
   170-179.  The order in which a std::unordered_map is traversed is unspecified:
   [order] is that order. *)
Definition r_settings : reader overrides :=
  n <~ r_size ;; l <~ r_times r_entry n ;; r_ret (fold_left (fun o e => ov_update o [e]) l []).
(* PatternHandler: util/PatternHandler.h 102-107; BasePatternEncoder:
   command/Pattern.h 153-180; LPDDR6PatternExtraData:
   standards/lpddr6/LPDDR6Pattern.h 35-42.  m_lastPattern, the patterns and
   numberOfBankGroups stay.  The encoder of LPDDR6 has no settings. *)
Definition w_patterns (order : overrides) (h : patterns) : list item :=
  match h with
  | Pat _ => w_settings order
  | Pat6 h => [I_u64 (ex_burst (p6_extra h)); I_bool (ex_parity (p6_extra h))] ++ w_size 0
  end.
(* With w_patterns: PatternHandler: util/PatternHandler.h 102-107;
   BasePatternEncoder: command/Pattern.h 153-180; LPDDR6PatternExtraData:
   standards/lpddr6/LPDDR6Pattern.h 35-42.  m_lastPattern, the patterns and
   numberOfBankGroups stay.  The encoder of LPDDR6 has no settings. *)
Definition r_patterns (target : patterns) : reader patterns :=
  match target with
  | Pat h => o <~ r_settings ;; r_ret (Pat (mkHandler o (ph_map h) (ph_last h)))
  | Pat6 h => b <~ r_u64 ;; e <~ r_bool ;; _ <~ r_size ;;
              r_ret (Pat6 (mkHandler6 (mkExtra b (ex_groups (p6_extra h)) e) (p6_map h) (p6_last h)))
  end.

(* ---- the interfaces ---- *)

(* DBI, ranks and pins, in DDR4 only: standards/ddr4/DDR4Interface.cpp 382-391,
   402-411. *)
Definition w_dbi_part (i : iface) : list item :=
  match fi_std (if_spec i), if_dbi i with
  | DDR4, Some x => w_dbi (di_dbi x) ++ flat_map w_rank_if (if_ranks i) ++ flat_map w_pin (di_read x) ++ flat_map w_pin (di_write x)
  | _, _ => []
  end.
(* With w_dbi_part: DBI, ranks and pins, in DDR4 only:
   standards/ddr4/DDR4Interface.cpp 382-391, 402-411. *)
Definition r_dbi_part (target : iface) : reader (option dbi_pins_if * list rank_if) :=
  match fi_std (if_spec target), if_dbi target with
  | DDR4, Some x =>
      d <~ r_dbi (di_dbi x) ;; rs <~ r_each r_rank_if (if_ranks target) ;;
      r <~ r_each r_pin (di_read x) ;; w <~ r_each r_pin (di_write x) ;;
      r_ret (Some (mkDbiIf d r w (di_rate x)), rs)
  | _, _ => r_ret (if_dbi target, if_ranks target)
  end.
(* m_writeDQS or m_wck, whichever the standard has: DDR4Interface.cpp 380, 400;
   DDR5Interface.cpp 290, 300; LPDDR4Interface.cpp 275, 284;
   LPDDR5Interface.cpp 401, 410; LPDDR6Interface.cpp 379, 389. *)
Definition has_wck (s : standard) : bool := match s with LPDDR5 | LPDDR6 => true | _ => false end.
(* With has_wck: m_writeDQS or m_wck, whichever the standard has:
   DDR4Interface.cpp 380, 400; DDR5Interface.cpp 290, 300; LPDDR4Interface.cpp
   275, 284; LPDDR5Interface.cpp 401, 410; LPDDR6Interface.cpp 379, 389. *)
Definition second_clock (i : iface) : clock := if has_wck (fi_std (if_spec i)) then if_wck i else if_wdqs i.
(* serialize and deserialize: standards/ddr4/DDR4Interface.cpp 374-412;
   ddr5/DDR5Interface.cpp 284-302; lpddr4/LPDDR4Interface.cpp 269-286;
   lpddr5/LPDDR5Interface.cpp 395-412; lpddr6/LPDDR6Interface.cpp 373-391.  The
   inverter with its pins (LPDDR4, LPDDR5, LPDDR6), the metadata, the formatter's
   buffer and m_enabled (LPDDR6) stay as they are in the target. *)
Definition w_iface (order : overrides) (i : iface) : list item :=
  [I_u64 (if_last i)] ++ w_patterns order (if_pat i) ++ w_bus (if_cmd i) ++ w_data (if_data i) ++
  w_clock (if_rdqs i) ++ w_clock (second_clock i) ++ w_clock (if_clock i) ++ w_dbi_part i.
(* With w_iface: serialize and deserialize: standards/ddr4/DDR4Interface.cpp
   374-412; ddr5/DDR5Interface.cpp 284-302; lpddr4/LPDDR4Interface.cpp 269-286;
   lpddr5/LPDDR5Interface.cpp 395-412; lpddr6/LPDDR6Interface.cpp 373-391.  The
   inverter with its pins (LPDDR4, LPDDR5, LPDDR6), the metadata, the formatter's
   buffer and m_enabled (LPDDR6) stay as they are in the target. *)
Definition r_iface (target : iface) : reader iface :=
  t <~ r_u64 ;; h <~ r_patterns (if_pat target) ;; c <~ r_bus (if_cmd target) ;; d <~ r_data (if_data target) ;;
  rq <~ r_clock (if_rdqs target) ;; k2 <~ r_clock (second_clock target) ;; k <~ r_clock (if_clock target) ;;
  x <~ r_dbi_part target ;;
  let wck := has_wck (fi_std (if_spec target)) in
  r_ret (mkIface (if_spec target) c d rq (if wck then if_wdqs target else k2) (if wck then k2 else if_wck target) k
                 (fst x) (snd x) h t (if_meta target) (if_buf target) (if_enabled target)).
