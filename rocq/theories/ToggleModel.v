(* The toggling-rate estimator and the data bus.  Models
   src/DRAMPower/DRAMPower/dram/Interface.cpp and util/databus.h.
   Doubles are exact rationals: rounding of double arithmetic is not modelled. *)
From Coq Require Import NArith ZArith QArith Qround List Bool.
From Verif Require Import Base Bits BusModel.
Import ListNotations.
Local Open Scope N_scope.

(* Conversion of a double to uint64_t: towards zero, undefined when the result
   does not fit (C++ [conv.fpint]). *)
Definition to_u64 (q : Q) : result N :=
  if Qle_bool q (-1) then Fails UB
  else if Qle_bool (inject_Z (Z.of_N two64)) q then Fails UB
  else Value (Z.to_N (Qfloor q)).
(* Conversion of a uint64_t to double; exact here. *)
Definition of_u64 (n : N) : Q := inject_Z (Z.of_N n).

(* DRAMUtils TogglingRateIdlePattern, as used in dram/Interface.cpp 180-189. *)
Inductive toggle_idle := TogL | TogH | TogInvalid.

(* Members of TogglingHandle: dram/Interface.h 32-41; lb_ are those of
   TogglingHandleLastBurst, 20-22. *)
Record toggling := mkToggling {
  tg_width : N;
  tg_datarate : N;
  tg_rate : Q;
  tg_duty : Q;
  lb_length : N;
  lb_load : N;
  lb_handled : bool;
  tg_enabled : bool;
  tg_count : N;
  tg_disabled_at : N;
  tg_disable_time : N;
  tg_idle : toggle_idle
}.
(* Updates of the changing members; not functions of the source. *)
(* dram/Interface.h 32-41. *)
Definition tg_set (h : toggling) (len load : N) (handled enabled : bool) (count at_ time : N) : toggling :=
  mkToggling (tg_width h) (tg_datarate h) (tg_rate h) (tg_duty h) len load handled enabled count at_ time (tg_idle h).

(* Constructor: dram/Interface.cpp 21-33, default members Interface.h 20-22,
   38-40. *)
Definition in_unit (q : Q) : bool := Qle_bool 0 q && Qle_bool q 1.
(* With in_unit: Constructor: dram/Interface.cpp 21-33, default members
   Interface.h 20-22, 38-40. *)
Definition toggling_new (width datarate : N) (rate duty : Q) (idle : toggle_idle) (enabled : bool) : result toggling :=
  check (0 <? width) (check (0 <? datarate) (check (in_unit duty) (check (in_unit rate)
    (Value (mkToggling width datarate rate duty 0 0 true enabled 0 0 0 idle))))).

(* disable: dram/Interface.cpp 35-52. *)
Definition toggling_disable (h : toggling) (t : N) : toggling :=
  let vt := u64_mul t (tg_datarate h) in
  if tg_enabled h then
    let count := if lb_handled h then tg_count h
                 else if u64_add (lb_length h) (lb_load h) <=? vt then u64_add (tg_count h) (lb_length h)
                 else u64_add (tg_count h) (u64_sub vt (lb_load h)) in
    tg_set h (lb_length h) (lb_load h) true false count vt (tg_disable_time h)
  else h.

(* enable: dram/Interface.cpp 54-61. *)
Definition toggling_enable (h : toggling) (t : N) : toggling :=
  if tg_enabled h then h
  else tg_set h (lb_length h) (lb_load h) (lb_handled h) true (tg_count h) (tg_disabled_at h)
              (u64_add (tg_disable_time h) (u64_sub (u64_mul t (tg_datarate h)) (tg_disabled_at h))).

(* setTogglingRateAndDutyCycle: dram/Interface.cpp 94-99; checks nothing. *)
Definition toggling_define (h : toggling) (rate duty : Q) (idle : toggle_idle) : toggling :=
  mkToggling (tg_width h) (tg_datarate h) rate duty (lb_length h) (lb_load h) (lb_handled h) (tg_enabled h)
             (tg_count h) (tg_disabled_at h) (tg_disable_time h) idle.

(* incCountBurstLength: dram/Interface.cpp 119-145. *)
Definition toggling_burst (h : toggling) (t len : N) : result toggling :=
  let vt := u64_mul t (tg_datarate h) in
  if tg_datarate h =? 0 then Fails UB else
  check (vt / tg_datarate h =? t)
    (check (lb_handled h || (u64_add (lb_length h) (lb_load h) <=? vt))
      (let count := if lb_handled h then tg_count h else u64_add (tg_count h) (lb_length h) in
       Value (if tg_enabled h then tg_set h len vt false (tg_enabled h) count (tg_disabled_at h) (tg_disable_time h)
              else tg_set h (lb_length h) (lb_load h) true (tg_enabled h) count (tg_disabled_at h) (tg_disable_time h)))).

(* incCountBitLength: dram/Interface.cpp 146-150. *)
Definition toggling_bits (h : toggling) (t n_bits : N) : result toggling :=
  if tg_width h =? 0 then Fails UB else
  check (n_bits mod tg_width h =? 0) (toggling_burst h t (n_bits / tg_width h)).

(* get_stats: dram/Interface.cpp 151-198. *)
Definition toggling_get (h : toggling) (t : N) : result bus_stats :=
  let vt := u64_mul t (tg_datarate h) in
  if tg_datarate h =? 0 then Fails UB else
  check (vt / tg_datarate h =? t)
    (let count :=
       if tg_enabled h then
         if negb (lb_handled h) && (vt <? u64_add (lb_length h) (lb_load h)) then u64_add (tg_count h) (u64_sub vt (lb_load h))
         else if negb (lb_handled h) then u64_add (tg_count h) (lb_length h)
         else tg_count h
       else tg_count h in
     let off := if tg_enabled h then tg_disable_time h
                else u64_add (tg_disable_time h) (u64_sub vt (tg_disabled_at h)) in
     o <- to_u64 (of_u64 count * tg_duty h) ;;
     z <- to_u64 (of_u64 count * (1 - tg_duty h)) ;;
     f <- to_u64 (of_u64 count * tg_rate h / 2) ;;
     let idle := u64_sub (u64_sub vt off) count in
     oz <- (match tg_idle h with
            | TogL => Value (o, u64_add z idle)
            | TogH => Value (u64_add o idle, z)
            | TogInvalid => Fails Exception
            end) ;;
     let f := u64_mul f (tg_width h) in
     Value (mkStats (u64_mul (fst oz) (tg_width h)) (u64_mul (snd oz) (tg_width h)) (u64_add f f) f f)).

(* get_lastburst_timestamp: dram/Interface.cpp 106-117. *)
Definition toggling_last_burst (h : toggling) (relative_to_clock : bool) : result N :=
  let e := u64_add (lb_load h) (lb_length h) in
  if relative_to_clock then
    if tg_datarate h =? 0 then Fails UB else
    let r := e mod tg_datarate h in
    Value ((if r =? 0 then e else u64_add e (u64_sub (tg_datarate h) r)) / tg_datarate h)
  else Value e.

(* ---- DataBus ---- *)

(* DataBusMode: util/databus_types.h 13-16. *)
Inductive bus_mode := ModeBus | ModeToggling.

(* DataBusConfig and ToggleRateDefinition: util/databus_types.h 18-22. *)
Record data_config := mkDataConfig {
  dc_width : nat;
  dc_rate : N;
  dc_read_rate : Q; dc_read_duty : Q; dc_read_idle : toggle_idle;
  dc_write_rate : Q; dc_write_duty : Q; dc_write_idle : toggle_idle
}.

(* Members of DataBus<max>: util/databus.h 182-188; width and dataRate are copies
   of those in the buses and left out. *)
Record data_bus := mkDataBus {
  d_read : bus;
  d_write : bus;
  d_tread : toggling;
  d_twrite : toggling;
  d_mode : bus_mode
}.

(* convertIdlePattern: util/databus.h 31-42. *)
Definition convert_idle (i : toggle_idle) : result idle_spec :=
  match i with TogL => Value IdleL | TogH => Value IdleH | TogInvalid => Fails Exception end.

(* Comparison of the mode with Bus. *)
(* util/databus.h 60-78. *)
Definition is_bus (m : bus_mode) : bool := match m with ModeBus => true | ModeToggling => false end.

(* Constructor: util/databus.h 46-78. *)
Definition data_new (max : nat) (c : data_config) (m : bus_mode) : result data_bus :=
  ir <- convert_idle (dc_read_idle c) ;;
  br <- bus_new max (dc_width c) (dc_rate c) ir (is_bus m) ;;
  iw <- convert_idle (dc_write_idle c) ;;
  bw <- bus_new max (dc_width c) (dc_rate c) iw (is_bus m) ;;
  tr <- toggling_new (N.of_nat (dc_width c)) (dc_rate c) (dc_read_rate c) (dc_read_duty c) (dc_read_idle c) (negb (is_bus m)) ;;
  tw <- toggling_new (N.of_nat (dc_width c)) (dc_rate c) (dc_write_rate c) (dc_write_duty c) (dc_write_idle c) (negb (is_bus m)) ;;
  Value (mkDataBus br bw tr tw m).

(* load: util/databus.h 81-95; None is a null pointer. *)
Definition data_load (m : bus_mode) (b : bus) (h : toggling) (t : N) (n_bits : nat) (data : option (list N))
  : result (bus * toggling) :=
  match m with
  | ModeBus =>
      match data with
      | None => Value (b, h)
      | Some bytes => if Nat.eqb n_bits 0 then Value (b, h)
                      else b' <- bus_load b t bytes n_bits ;; Value (b', h)
      end
  | ModeToggling => h' <- toggling_bits h t (N.of_nat n_bits) ;; Value (b, h')
  end.

(* loadWrite, loadRead: util/databus.h 98-103. *)
Definition data_load_write (d : data_bus) (t : N) (n_bits : nat) (data : option (list N)) : result data_bus :=
  x <- data_load (d_mode d) (d_write d) (d_twrite d) t n_bits data ;;
  Value (mkDataBus (d_read d) (fst x) (d_tread d) (snd x) (d_mode d)).
(* With data_load_write: loadWrite, loadRead: util/databus.h 98-103. *)
Definition data_load_read (d : data_bus) (t : N) (n_bits : nat) (data : option (list N)) : result data_bus :=
  x <- data_load (d_mode d) (d_read d) (d_tread d) t n_bits data ;;
  Value (mkDataBus (fst x) (d_write d) (snd x) (d_twrite d) (d_mode d)).

(* enableBus: util/databus.h 105-111. *)
Definition data_enable_bus (d : data_bus) (t : N) : result data_bus :=
  r <- bus_enable (d_read d) t ;; w <- bus_enable (d_write d) t ;;
  Value (mkDataBus r w (toggling_disable (d_tread d) t) (toggling_disable (d_twrite d) t) ModeBus).

(* enableTogglingRate: util/databus.h 113-119. *)
Definition data_enable_toggling (d : data_bus) (t : N) : result data_bus :=
  r <- bus_disable (d_read d) t ;; w <- bus_disable (d_write d) t ;;
  Value (mkDataBus (fst r) (fst w) (toggling_enable (d_tread d) t) (toggling_enable (d_twrite d) t) ModeToggling).

(* get_stats: util/databus.h 153-163, with the four references at zero: read bus,
   write bus, read estimate, write estimate. *)
Record data_stats := mkDataStats { ds_read : bus_stats; ds_write : bus_stats; ds_tread : bus_stats; ds_twrite : bus_stats }.
(* With data_stats: get_stats: util/databus.h 153-163, with the four references at
   zero: read bus, write bus, read estimate, write estimate. *)
Definition data_get (d : data_bus) (t : N) : result data_stats :=
  r <- bus_get_stats (d_read d) t ;; w <- bus_get_stats (d_write d) t ;;
  tr <- toggling_get (d_tread d) t ;; tw <- toggling_get (d_twrite d) t ;;
  Value (mkDataStats (stats_add stats0 r) (stats_add stats0 w) (stats_add stats0 tr) (stats_add stats0 tw)).

(* getDataBusPreset: util/databus_presets.h 26-41: capacity chosen for a width;
   the assert comes before the exception. *)
Definition preset_capacity (width : nat) : result nat :=
  if Nat.leb width 64 then Value 64%nat
  else if Nat.leb width 256 then Value 256%nat
  else if Nat.leb width 1024 then Value 1024%nat
  else if Nat.leb width 4096 then Value 4096%nat
  else Fails Assertion.
