(* Reading an interface from a stream that breaks off.  As CutModel, for the
   interfaces: std::istream::read stores nothing once the stream has come to its end,
   and the deserialize members go on with what the variable held before.  Some of
   the variables are locals without an initialiser (util/dbi.h 126, 130, 135, 139,
   340, 344; command/Pattern.h 174-175): using one that was not read is undefined
   behaviour.  Paths are under src/DRAMPower/DRAMPower.

   Simplifications: the stream breaks off between two values, not inside one; a byte
   of the inverted data that was not read (util/dbi.h 344) counts as undefined, too. *)
From Coq Require Import NArith QArith List Bool.
From Verif Require Import Base Command CoreModel Bits BusModel ToggleModel PinModel DbiModel DbiPinModel PatternModel InterfaceModel SerialModel ByteModel.
Import ListNotations.
Local Open Scope N_scope.

(* A deserialize member: the calls of read in their order, each with what the variable
   holds before, None if it was not initialised.  Not a type of the source. *)
(* util/Deserialize.h 56. *)
Inductive lprog (A : Type) :=
| LRet (a : A)
| LRead (t : ty) (old : option (val t)) (k : val t -> lprog A).
Arguments LRet {A} a.
Arguments LRead {A} t old k.
(* Two sequences of read calls, one after the other: util/Deserialize.h 56. *)
Fixpoint l_bind {A B} (p : lprog A) (k : A -> lprog B) : lprog B :=
  match p with LRet a => k a | LRead t o f => LRead t o (fun v => l_bind (f v) k) end.
(* Notation for l_bind: util/Deserialize.h 56. *)
Notation "x <-- p ;; k" := (l_bind p (fun x => k)) (at level 60, p at next level, right associativity).

(* One call of read that finds a value: e.g. util/cycle_stats.h 92. *)
Definition one (t : ty) : reader (val t) :=
  match t with
  | T_bool => r_bool | T_u8 => r_u8 | T_u16 => r_u16 | T_u64 => r_u64 | T_double => r_double | T_opt => r_opt | T_raw m => r_raw m
  | T_bytes n => r_bytes n | T_mem => r_mem | T_bank => r_bankstate | T_pin => r_pinstate | T_idle => r_idle | T_mode => r_mode
  | T_desc => r_desc | T_spec => r_spec | T_u8_bool => r_u8_as_bool
  end.
(* Outcome: the object and the rest of the stream; a variable used that was never set;
   a value of another type, or one that is no bool (SerialModel). *)
(* util/dbi.h 126-134. *)
Inductive after_read (A : Type) := Kept (a : A) (rest : list item) | Unset | Other.
Arguments Kept {A} a rest.
Arguments Unset {A}.
Arguments Other {A}.
(* The calls performed on a stream: util/Deserialize.h 56. *)
Fixpoint l_run {A} (p : lprog A) (s : list item) : after_read A :=
  match p with
  | LRet a => Kept a s
  | LRead t old k =>
      match s with
      | [] => match old with Some v => l_run (k v) [] | None => Unset end
      | _ => match one t s with Got v r => l_run (k v) r | _ => Other end
      end
  end.

(* A read into a member: e.g. util/bus_types.h 64. *)
Definition o_read (t : ty) (old : val t) : lprog (val t) := LRead t (Some old) LRet.
(* A read into a local that was not initialised: util/dbi.h 126-127. *)
Definition o_fresh (t : ty) : lprog (val t) := LRead t None LRet.
(* A std::uint64_t, timestamp_t or std::size_t: e.g. util/bus_types.h 64. *)
Definition o_u64 (old : N) : lprog N := o_read T_u64 old.
(* A bool: e.g. util/bus.h 274. *)
Definition o_bool (old : bool) : lprog bool := o_read T_bool old.
(* A std::size_t that holds [old]: util/burst_storage.h 320. *)
Definition o_size (old : nat) : lprog nat := n <-- o_u64 (N.of_nat old) ;; LRet (N.to_nat n).
(* A std::size_t without an initialiser: util/dbi.h 126-127, 135-136, 340-341. *)
Definition o_new_size : lprog nat := n <-- o_fresh T_u64 ;; LRet (N.to_nat n).
(* `for (auto& x : xs) x.deserialize(stream)`: standards/ddr4/DDR4Interface.cpp 403-411. *)
Fixpoint o_each {A} (r : A -> lprog A) (targets : list A) : lprog (list A) :=
  match targets with
  | [] => LRet []
  | x :: xs => y <-- r x ;; ys <-- o_each r xs ;; LRet (y :: ys)
  end.
(* `for (i = 0; i < n; ++i) { read; push_back; }`: util/dbi.h 130-134. *)
Fixpoint o_times {A} (r : lprog A) (n : nat) : lprog (list A) :=
  match n with
  | O => LRet []
  | S n => y <-- r ;; ys <-- o_times r n ;; LRet (y :: ys)
  end.
(* bus_stats_t: util/bus_types.h 63-69. *)
Definition o_stats (o : bus_stats) : lprog bus_stats :=
  a <-- o_u64 (ones o) ;; b <-- o_u64 (zeroes o) ;; c <-- o_u64 (changes o) ;; d <-- o_u64 (o2z o) ;; e <-- o_u64 (z2o o) ;; LRet (mkStats a b c d e).
(* PendingStats<bus_stats_t>: util/pending_stats.h 66-70. *)
Definition o_pending (o : pending) : lprog pending :=
  t <-- o_u64 (pd_time o) ;; s <-- o_stats (pd_stats o) ;; b <-- o_bool (pd_set o) ;; LRet (mkPending t s b).
(* Clock: util/clock.h 86-97.  The flag is a local set to false; last_start is set to
   timestamp_t() before it is read. *)
Definition o_clock (o : clock) : lprog clock :=
  st <-- (b <-- o_bool false ;; if b : bool then n <-- o_read T_opt 0 ;; LRet (Some n) else LRet None) ;;
  s <-- o_stats (ck_stats o) ;; LRet (mkClock st s (ck_rate o)).
(* deserializeBurst: util/burst_storage.h 297-305; the array of bytes is set to 0. *)
Definition o_burst (max : nat) (v : N) : lprog N :=
  l <-- o_read (T_bytes (Nat.div (max + 7) 8)) (repeat 0 (Nat.div (max + 7) 8)) ;; LRet (bits_from max l v).
(* BusContainer: util/burst_storage.h 318-328; totalBursts is set to 0. *)
Definition o_container (max : nat) (o : container) : lprog container :=
  n <-- o_size (bc_count o) ;; t <-- o_u64 (bc_load o) ;; k <-- o_size 0 ;; bs <-- o_times (o_burst max 0) k ;; LRet (mkContainer bs (bc_width o) n t).
(* Bus: util/bus.h 270-278. *)
Definition o_bus (o : bus) : lprog bus :=
  s <-- o_stats (b_stats o) ;; c <-- o_container (b_max o) (b_store o) ;; ll <-- o_u64 (b_last_load o) ;; e <-- o_bool (b_enabled o) ;;
  d <-- o_u64 (b_disabled_at o) ;; l <-- o_read (T_raw (b_max o)) (b_last o) ;; p <-- o_pending (b_pending o) ;;
  LRet (mkBus (b_max o) s c ll e d (b_width o) (b_datarate o) p l (b_idle_stats o) (b_idle o)).
(* TogglingHandle: dram/Interface.cpp 14-19, 212-224. *)
Definition o_toggling (o : toggling) : lprog toggling :=
  w <-- o_u64 (tg_width o) ;; dr <-- o_u64 (tg_datarate o) ;; r <-- o_read T_double (tg_rate o) ;; du <-- o_read T_double (tg_duty o) ;;
  len <-- o_u64 (lb_length o) ;; ld <-- o_u64 (lb_load o) ;; h <-- o_bool (lb_handled o) ;;
  e <-- o_bool (tg_enabled o) ;; c <-- o_u64 (tg_count o) ;; da <-- o_u64 (tg_disabled_at o) ;; dt <-- o_u64 (tg_disable_time o) ;;
  i <-- o_read T_idle (tg_idle o) ;; LRet (mkToggling w dr r du len ld h e c da dt i).
(* DataBus: util/databus.h 173-179. *)
Definition o_data (o : data_bus) : lprog data_bus :=
  r <-- o_bus (d_read o) ;; w <-- o_bus (d_write o) ;; tr <-- o_toggling (d_tread o) ;; tw <-- o_toggling (d_twrite o) ;; m <-- o_read T_mode (d_mode o) ;;
  LRet (mkDataBus r w tr tw m).
(* BitsetContainer: util/burst_storage.h 177-187. *)
Definition o_bitstore (max : nat) (o : bit_store) : lprog bit_store :=
  n <-- o_size (bt_count o) ;; t <-- o_u64 (bt_load o) ;; b <-- o_burst max (bt_bits o) ;; LRet (mkBitStore b n t).
(* Pin: util/pin.h 28-30, 208-215. *)
Definition o_pin (o : pin) : lprog pin :=
  st <-- o_read T_pin (pn_state o) ;; sa <-- o_u64 (pn_set_at o) ;; i <-- o_bool (pn_init o) ;; s <-- o_bitstore (pn_max o) (pn_store o) ;;
  t <-- o_u64 (pn_pend_time o) ;; f <-- o_read T_pin (pn_pend_from o) ;; n <-- o_read T_pin (pn_pend_to o) ;; e <-- o_bool (pn_pend_set o) ;; k <-- o_stats (pn_stats o) ;;
  LRet (mkPin (pn_max o) t f n e k st (pn_idle o) i sa s).
(* LastBurst_t: util/dbi.h 120-144.  m_n_bits is not in the model (it is never used);
   any old value will do for it. *)
Definition o_lastburst (c : dbi_config) (o : lastburst) : lprog lastburst :=
  s <-- o_u64 (lb_start o) ;; e <-- o_u64 (lb_end o) ;; k <-- o_size (lb_chunks o) ;; _ <-- o_u64 0 ;; i <-- o_bool (lb_init o) ;;
  n <-- o_new_size ;; inv <-- o_times (o_fresh T_bool) n ;; m <-- o_new_size ;; beat <-- o_times (o_fresh T_u8_bool) m ;;
  LRet (mkLast s e k i inv (if Nat.ltb (lb_cap o) n then dg_grow c n else lb_cap o) beat).
(* DBI: util/dbi.h 332-348. *)
Definition o_dbi (o : dbi) : lprog dbi :=
  let c := db_config o in
  e <-- o_bool (db_enable o) ;; l <-- o_bool (db_last_read o) ;; r <-- o_lastburst c (db_read o) ;; w <-- o_lastburst c (db_write o) ;;
  n <-- o_new_size ;; d <-- o_times (o_fresh T_u8) n ;; LRet (mkDbi c e r w l d).
(* RankInterface: dram/Rank.cpp 76-85. *)
Definition o_rank_if (o : rank_if) : lprog rank_if :=
  a <-- o_u64 (ri_rs o) ;; b <-- o_u64 (ri_ws o) ;; c <-- o_u64 (ri_rm o) ;; d <-- o_u64 (ri_wm o) ;; e <-- o_u64 (ri_rmt o) ;; f <-- o_u64 (ri_wmt o) ;;
  g <-- o_u64 (ri_rend o) ;; h <-- o_u64 (ri_wend o) ;; LRet (mkRankIf a b c d e f g h).
(* The settings of an encoder: command/Pattern.h 170-179.  The size is set to 0, the
   settings are emptied, the entries are locals without initialisers. *)
Definition o_settings : lprog overrides :=
  n <-- o_size 0 ;; l <-- o_times (d <-- o_fresh T_desc ;; s <-- o_fresh T_spec ;; LRet (d, s)) n ;;
  LRet (fold_left (fun o e => ov_update o [e]) l []).
(* PatternHandler: util/PatternHandler.h 105-107; LPDDR6PatternExtraData:
   standards/lpddr6/LPDDR6Pattern.h 39-42.  Settings of LPDDR6 as in SerialModel. *)
Definition o_patterns (o : patterns) : lprog patterns :=
  match o with
  | Pat h => x <-- o_settings ;; LRet (Pat (mkHandler x (ph_map h) (ph_last h)))
  | Pat6 h => b <-- o_u64 (ex_burst (p6_extra h)) ;; e <-- o_bool (ex_parity (p6_extra h)) ;; _ <-- o_size 0 ;;
              LRet (Pat6 (mkHandler6 (mkExtra b (ex_groups (p6_extra h)) e) (p6_map h) (p6_last h)))
  end.
(* DBI, ranks and pins, in DDR4 only: standards/ddr4/DDR4Interface.cpp 402-411. *)
Definition o_dbi_part (o : iface) : lprog (option dbi_pins_if * list rank_if) :=
  match fi_std (if_spec o), if_dbi o with
  | DDR4, Some x =>
      d <-- o_dbi (di_dbi x) ;; rs <-- o_each o_rank_if (if_ranks o) ;; r <-- o_each o_pin (di_read x) ;; w <-- o_each o_pin (di_write x) ;;
      LRet (Some (mkDbiIf d r w (di_rate x)), rs)
  | _, _ => LRet (if_dbi o, if_ranks o)
  end.
(* deserialize: standards/ddr4/DDR4Interface.cpp 394-412; ddr5/DDR5Interface.cpp
   294-302; lpddr4/LPDDR4Interface.cpp 278-286; lpddr5/LPDDR5Interface.cpp 404-412;
   lpddr6/LPDDR6Interface.cpp 383-391. *)
Definition o_iface (o : iface) : lprog iface :=
  t <-- o_u64 (if_last o) ;; h <-- o_patterns (if_pat o) ;; c <-- o_bus (if_cmd o) ;; d <-- o_data (if_data o) ;;
  rq <-- o_clock (if_rdqs o) ;; k2 <-- o_clock (second_clock o) ;; k <-- o_clock (if_clock o) ;; x <-- o_dbi_part o ;;
  let wck := has_wck (fi_std (if_spec o)) in
  LRet (mkIface (if_spec o) c d rq (if wck then if_wdqs o else k2) (if wck then k2 else if_wck o) k
                (fst x) (snd x) h t (if_meta o) (if_buf o) (if_enabled o)).
