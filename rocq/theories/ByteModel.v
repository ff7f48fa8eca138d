(* The bytes of a stream.  Models std::ostream::write and std::istream::read as they
   are called by the serialize and deserialize members of SerialModel and
   ExtensionModel (under src/DRAMPower/DRAMPower): write appends the object
   representation of a value; read copies as many bytes as the type has out of the
   stream.

   The layout of the types (widths, byte order, padding) is the compiler's and is a
   parameter.  A read that finds too few bytes sets failbit and leaves a value that
   is not specified: the outcome Short, of which nothing more is claimed.  Bytes that
   are no value of their type are undefined behaviour: the outcome Bad. *)
From Coq Require Import NArith QArith List Bool.
From Verif Require Import Base Command CoreModel Bits BusModel ToggleModel PinModel DbiModel DbiPinModel PatternModel InterfaceModel SerialModel DramModel ExtensionModel.
Import ListNotations.
Local Open Scope N_scope.

(* ---- types and layouts ---- *)

(* The types T of `read(reinterpret_cast<char*>(&x), sizeof(x))`, one for each kind of
   item in SerialModel; T_u8_bool is a bool read where a uint8_t was written. *)
(* The calls are cited at the readers below, e.g. util/cycle_stats.h 91-105. *)
Inductive ty :=
| T_bool | T_u8 | T_u16 | T_u64 | T_double | T_opt | T_raw (max : nat) | T_bytes (len : nat)
| T_mem | T_bank | T_pin | T_idle | T_mode | T_desc | T_spec | T_u8_bool.
(* The values of a type: as the items in SerialModel. *)
(* E.g. util/cycle_stats.h 91-105. *)
Definition val (t : ty) : Type :=
  match t with
  | T_bool | T_bank => bool
  | T_u8 | T_u16 | T_u64 | T_opt | T_raw _ | T_u8_bool => N
  | T_double => Q
  | T_bytes _ => list N
  | T_mem => memState | T_pin => pin_state | T_idle => toggle_idle | T_mode => bus_mode | T_desc => desc | T_spec => bit_spec
  end.
(* The type and the value of an item. *)
(* E.g. util/cycle_stats.h 78-89. *)
Definition typed (i : item) : {t : ty & val t} :=
  match i with
  | I_bool b => existT val T_bool b | I_u8 n => existT val T_u8 n | I_u16 n => existT val T_u16 n | I_u64 n => existT val T_u64 n
  | I_double q => existT val T_double q | I_opt n => existT val T_opt n | I_raw m n => existT val (T_raw m) n
  | I_bytes l => existT val (T_bytes (length l)) l | I_mem m => existT val T_mem m | I_bank b => existT val T_bank b
  | I_pin s => existT val T_pin s | I_idle i => existT val T_idle i | I_mode m => existT val T_mode m
  | I_desc d => existT val T_desc d | I_spec s => existT val T_spec s
  end.
(* A layout: sizeof, and the value that bytes represent if they represent any
   (padding makes several sequences represent one value).  Not in the source: it is
   the compiler's; the writers and readers that use it are e.g. util/cycle_stats.h
   78-106. *)
Record layout := mkLayout {
  width : ty -> nat;
  look : forall t, list N -> option (val t)
}.

(* ---- reading bytes ---- *)

(* Outcome of reading from bytes. *)
(* E.g. util/cycle_stats.h 91-106. *)
Inductive reading (A : Type) := Taken (a : A) (rest : list N) | Short | Bad.
Arguments Taken {A} a rest.
Arguments Short {A}.
Arguments Bad {A}.
(* stream.read(reinterpret_cast<char*>(&x), sizeof(x)): e.g. util/cycle_stats.h 92. *)
Definition take (a : layout) (t : ty) (s : list N) : reading (val t) :=
  if Nat.ltb (length s) (width a t) then Short
  else match look a t (firstn (width a t) s) with
       | Some v => Taken v (skipn (width a t) s)
       | None => Bad
       end.
(* A deserialize member: the calls of read in their order, each of which may depend
   on what was read before.  Not a type of the source. *)
(* util/Deserialize.h 56. *)
Inductive prog (A : Type) :=
| Ret (a : A)
| Read (t : ty) (k : val t -> prog A).
Arguments Ret {A} a.
Arguments Read {A} t k.
(* Two sequences of read calls, one after the other: util/Deserialize.h 56. *)
Fixpoint p_bind {A B} (p : prog A) (k : A -> prog B) : prog B :=
  match p with Ret a => k a | Read t f => Read t (fun v => p_bind (f v) k) end.
(* Notation for p_bind: util/Deserialize.h 56. *)
Notation "x <<- p ;;; k" := (p_bind p (fun x => k)) (at level 60, p at next level, right associativity).
(* The calls performed on the bytes of a stream: util/Deserialize.h 56. *)
Fixpoint from_bytes {A} (a : layout) (p : prog A) (s : list N) : reading A :=
  match p with
  | Ret x => Taken x s
  | Read t k => match take a t s with Taken v rest => from_bytes a (k v) rest | Short => Short | Bad => Bad end
  end.

(* ---- the deserialize members ---- *)

(* One call of read. *)
(* E.g. util/cycle_stats.h 92. *)
Definition p_read (t : ty) : prog (val t) := Read t Ret.
(* A std::uint64_t, timestamp_t or std::size_t: e.g. util/cycle_stats.h 92. *)
Definition p_u64 : prog N := p_read T_u64.
(* A bool: e.g. util/cycle_stats.h 94. *)
Definition p_bool : prog bool := p_read T_bool.
(* read of a std::size_t: util/burst_storage.h 318-328. *)
Definition p_size : prog nat := n <<- p_u64 ;;; Ret (N.to_nat n).
(* `for (auto& x : xs) x.deserialize(stream)`. *)
(* dram/Rank.cpp 60-62; standards/ddr4/DDR4Core.cpp 346-348. *)
Fixpoint p_each {A} (r : A -> prog A) (targets : list A) : prog (list A) :=
  match targets with
  | [] => Ret []
  | x :: xs => y <<- r x ;;; ys <<- p_each r xs ;;; Ret (y :: ys)
  end.
(* `for (i = 0; i < n; ++i) { read; push_back; }`. *)
(* util/dbi.h 130-134. *)
Fixpoint p_times {A} (r : prog A) (n : nat) : prog (list A) :=
  match n with
  | O => Ret []
  | S n => y <<- r ;;; ys <<- p_times r n ;;; Ret (y :: ys)
  end.
(* The flag and, if set, the raw std::optional: util/cycle_stats.h 93-105;
   util/clock.h 88-95. *)
Definition p_optional : prog (option N) :=
  b <<- p_bool ;;; if b : bool then n <<- p_read T_opt ;;; Ret (Some n) else Ret None.
(* interval_counter: util/cycle_stats.h 91-106. *)
Definition p_interval : prog interval := c <<- p_u64 ;;; s <<- p_optional ;;; e <<- p_optional ;;; Ret (mkInterval c s e).
(* command_stats_t: data/stats.h 41-53. *)
Definition p_cstats : prog cstats :=
  a <<- p_u64 ;;; p <<- p_u64 ;;; r <<- p_u64 ;;; w <<- p_u64 ;;; ra <<- p_u64 ;;; rp <<- p_u64 ;;; r2 <<- p_u64 ;;; rd <<- p_u64 ;;;
  rs <<- p_u64 ;;; ru <<- p_u64 ;;; wu <<- p_u64 ;;; Ret (mkCstats a p r w ra rp r2 rd rs ru wu).
(* Bank: dram/Bank.h 42-50. *)
Definition p_bank (_ : bank) : prog bank :=
  s <<- p_read T_bank ;;; lp <<- p_u64 ;;; re <<- p_u64 ;;; a <<- p_interval ;;; pa <<- p_interval ;;; pp <<- p_interval ;;; c <<- p_cstats ;;;
  Ret (mkBank c a pa pp s lp re).
(* Rank: dram/Rank.cpp 45-63. *)
Definition p_rank (target : rank) : prog rank :=
  m <<- p_read T_mem ;;; _ <<- p_u64 ;;; ns <<- p_u64 ;;; nd <<- p_u64 ;;; er <<- p_u64 ;;;
  p <<- p_interval ;;; a <<- p_interval ;;; rf <<- p_interval ;;; sr <<- p_interval ;;; pa <<- p_interval ;;; pp <<- p_interval ;;;
  ds <<- p_interval ;;; bs <<- p_each p_bank (rk_banks target) ;;;
  Ret (mkRank m p a rf sr pa pp ds ns nd er bs).
(* The cores: standards/ddr4/DDR4Core.cpp 343-349; ddr5/DDR5Core.cpp 362-367;
   lpddr4/LPDDR4Core.cpp 340-345; lpddr5/LPDDR5Core.cpp 376-381;
   lpddr6/LPDDR6Core.cpp 351-356. *)
Definition p_core (target : core) : prog core :=
  l <<- p_u64 ;;; rs <<- p_each p_rank (co_ranks target) ;;; Ret (mkCore rs (co_queue target) l).
(* bus_stats_t: util/bus_types.h 63-69. *)
Definition p_stats : prog bus_stats :=
  a <<- p_u64 ;;; b <<- p_u64 ;;; c <<- p_u64 ;;; d <<- p_u64 ;;; e <<- p_u64 ;;; Ret (mkStats a b c d e).
(* PendingStats<bus_stats_t>: util/pending_stats.h 66-70. *)
Definition p_pending : prog pending := t <<- p_u64 ;;; s <<- p_stats ;;; b <<- p_bool ;;; Ret (mkPending t s b).
(* Clock: util/clock.h 86-97. *)
Definition p_clock (target : clock) : prog clock := o <<- p_optional ;;; s <<- p_stats ;;; Ret (mkClock o s (ck_rate target)).
(* deserializeBurst: util/burst_storage.h 297-305. *)
Definition p_burst (max : nat) (v : N) : prog N :=
  l <<- p_read (T_bytes (Nat.div (max + 7) 8)) ;;; Ret (bits_from max l v).
(* BusContainer: util/burst_storage.h 318-328. *)
Definition p_container (max : nat) (target : container) : prog container :=
  n <<- p_size ;;; t <<- p_u64 ;;; k <<- p_size ;;; bs <<- p_times (p_burst max 0) k ;;; Ret (mkContainer bs (bc_width target) n t).
(* Bus: util/bus.h 270-278. *)
Definition p_bus (target : bus) : prog bus :=
  s <<- p_stats ;;; c <<- p_container (b_max target) (b_store target) ;;; ll <<- p_u64 ;;; e <<- p_bool ;;; d <<- p_u64 ;;;
  l <<- p_read (T_raw (b_max target)) ;;; p <<- p_pending ;;;
  Ret (mkBus (b_max target) s c ll e d (b_width target) (b_datarate target) p l (b_idle_stats target) (b_idle target)).
(* TogglingHandle: dram/Interface.cpp 14-19, 212-224. *)
Definition p_toggling : prog toggling :=
  w <<- p_u64 ;;; dr <<- p_u64 ;;; r <<- p_read T_double ;;; du <<- p_read T_double ;;; len <<- p_u64 ;;; ld <<- p_u64 ;;; h <<- p_bool ;;;
  e <<- p_bool ;;; c <<- p_u64 ;;; da <<- p_u64 ;;; dt <<- p_u64 ;;; i <<- p_read T_idle ;;;
  Ret (mkToggling w dr r du len ld h e c da dt i).
(* DataBus: util/databus.h 173-179. *)
Definition p_data (target : data_bus) : prog data_bus :=
  r <<- p_bus (d_read target) ;;; w <<- p_bus (d_write target) ;;; tr <<- p_toggling ;;; tw <<- p_toggling ;;; m <<- p_read T_mode ;;;
  Ret (mkDataBus r w tr tw m).
(* BitsetContainer: util/burst_storage.h 177-187. *)
Definition p_bitstore (max : nat) (target : bit_store) : prog bit_store :=
  n <<- p_size ;;; t <<- p_u64 ;;; b <<- p_burst max (bt_bits target) ;;; Ret (mkBitStore b n t).
(* Pin: util/pin.h 28-30, 208-215. *)
Definition p_pin (target : pin) : prog pin :=
  st <<- p_read T_pin ;;; sa <<- p_u64 ;;; i <<- p_bool ;;; s <<- p_bitstore (pn_max target) (pn_store target) ;;;
  t <<- p_u64 ;;; f <<- p_read T_pin ;;; o <<- p_read T_pin ;;; e <<- p_bool ;;; k <<- p_stats ;;;
  Ret (mkPin (pn_max target) t f o e k st (pn_idle target) i sa s).
(* LastBurst_t: util/dbi.h 120-144. *)
Definition p_lastburst (c : dbi_config) (target : lastburst) : prog lastburst :=
  s <<- p_u64 ;;; e <<- p_u64 ;;; k <<- p_size ;;; _ <<- p_u64 ;;; i <<- p_bool ;;;
  n <<- p_size ;;; inv <<- p_times p_bool n ;;; m <<- p_size ;;; beat <<- p_times (p_read T_u8_bool) m ;;;
  Ret (mkLast s e k i inv (if Nat.ltb (lb_cap target) n then dg_grow c n else lb_cap target) beat).
(* DBI: util/dbi.h 332-348. *)
Definition p_dbi (target : dbi) : prog dbi :=
  let c := db_config target in
  e <<- p_bool ;;; l <<- p_bool ;;; r <<- p_lastburst c (db_read target) ;;; w <<- p_lastburst c (db_write target) ;;;
  n <<- p_size ;;; d <<- p_times (p_read T_u8) n ;;;
  Ret (mkDbi c e r w l d).
(* RankInterface: dram/Rank.cpp 76-85. *)
Definition p_rank_if (_ : rank_if) : prog rank_if :=
  a <<- p_u64 ;;; b <<- p_u64 ;;; c <<- p_u64 ;;; d <<- p_u64 ;;; e <<- p_u64 ;;; f <<- p_u64 ;;; g <<- p_u64 ;;; h <<- p_u64 ;;;
  Ret (mkRankIf a b c d e f g h).
(* The settings of an encoder: command/Pattern.h 170-179. *)
Definition p_settings : prog overrides :=
  n <<- p_size ;;; l <<- p_times (d <<- p_read T_desc ;;; s <<- p_read T_spec ;;; Ret (d, s)) n ;;;
  Ret (fold_left (fun o e => ov_update o [e]) l []).
(* PatternHandler: util/PatternHandler.h 105-107; LPDDR6PatternExtraData:
   standards/lpddr6/LPDDR6Pattern.h 39-42. *)
Definition p_patterns (target : patterns) : prog patterns :=
  match target with
  | Pat h => o <<- p_settings ;;; Ret (Pat (mkHandler o (ph_map h) (ph_last h)))
  | Pat6 h => b <<- p_u64 ;;; e <<- p_bool ;;; _ <<- p_size ;;;
              Ret (Pat6 (mkHandler6 (mkExtra b (ex_groups (p6_extra h)) e) (p6_map h) (p6_last h)))
  end.
(* DBI, ranks and pins, in DDR4 only: standards/ddr4/DDR4Interface.cpp 402-411. *)
Definition p_dbi_part (target : iface) : prog (option dbi_pins_if * list rank_if) :=
  match fi_std (if_spec target), if_dbi target with
  | DDR4, Some x =>
      d <<- p_dbi (di_dbi x) ;;; rs <<- p_each p_rank_if (if_ranks target) ;;;
      r <<- p_each p_pin (di_read x) ;;; w <<- p_each p_pin (di_write x) ;;;
      Ret (Some (mkDbiIf d r w (di_rate x)), rs)
  | _, _ => Ret (if_dbi target, if_ranks target)
  end.
(* deserialize: standards/ddr4/DDR4Interface.cpp 394-412; ddr5/DDR5Interface.cpp
   294-302; lpddr4/LPDDR4Interface.cpp 278-286; lpddr5/LPDDR5Interface.cpp 404-412;
   lpddr6/LPDDR6Interface.cpp 383-391. *)
Definition p_iface (target : iface) : prog iface :=
  t <<- p_u64 ;;; h <<- p_patterns (if_pat target) ;;; c <<- p_bus (if_cmd target) ;;; d <<- p_data (if_data target) ;;;
  rq <<- p_clock (if_rdqs target) ;;; k2 <<- p_clock (second_clock target) ;;; k <<- p_clock (if_clock target) ;;;
  x <<- p_dbi_part target ;;;
  let wck := has_wck (fi_std (if_spec target)) in
  Ret (mkIface (if_spec target) c d rq (if wck then if_wdqs target else k2) (if wck then k2 else if_wck target) k
               (fst x) (snd x) h t (if_meta target) (if_buf target) (if_enabled target)).
(* The extensions: util/extensions.cpp 30-32, 54-60. *)
Definition p_ext (x : extension) : prog extension :=
  match x with
  | X_dbi _ => e <<- p_bool ;;; Ret (X_dbi e)
  | X_meta _ _ => a <<- p_read T_u16 ;;; b <<- p_read T_u16 ;;; Ret (X_meta a b)
  end.
(* The extension manager: util/extension_manager.h 130-138. *)
Fixpoint p_exts (m : manager extension) (ks : list nat) : prog (result (manager extension)) :=
  match ks with
  | [] => Ret (Value m)
  | k :: ks => if em_alive m k
               then match nth_error (em_objects m) k with
                    | Some v => v' <<- p_ext v ;;; p_exts (em_change k (fun _ => v') m) ks
                    | None => Ret (Fails UB)
                    end
               else Ret (Fails Exception)
  end.
(* The whole object: dram/dram_base.h 92-96 with deserialize_impl, e.g.
   standards/ddr4/DDR4.cpp 73-76. *)
Definition p_device (target : device) : prog (result device) :=
  x <<- p_exts (dv_ext target) (em_ser (dv_ext target)) ;;;
  match x with
  | Value m => c <<- p_core (dr_core (dv_dram target)) ;;; i <<- p_iface (dr_if (dv_dram target)) ;;; Ret (Value (mkDevice m (mkDram c i)))
  | Fails f => Ret (Fails f)
  end.
