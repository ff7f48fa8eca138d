(* The DBI pins of an interface.  Models the DBI part of
   standards/ddr4/DDR4Interface.cpp, standards/lpddr4/LPDDR4Interface.cpp and
   standards/lpddr5/LPDDR5Interface.cpp under src/DRAMPower/DRAMPower: one
   inverter and, for each direction, one pin per chunk of the bus width. *)
From Coq Require Import NArith List Bool.
From Verif Require Import Base Bits PinModel DbiModel.
Import ListNotations.
Local Open Scope N_scope.

(* m_dbi, m_dbiread, m_dbiwrite: DDR4Interface.h 100-102; di_rate is
   m_memSpec.dataRate. *)
Record dbi_pins_if := mkDbiIf { di_dbi : dbi; di_read : list pin; di_write : list pin; di_rate : N }.

(* Constructor: DDR4Interface.cpp 34-39, LPDDR4Interface.cpp 34-39,
   LPDDR5Interface.cpp 33-38; max is the capacity of pin_dbi_t. *)
Definition dbi_if_new (c : dbi_config) (max : nat) (rate : N) (enable : bool) : result dbi_pins_if :=
  d <- dbi_new c enable ;;
  match chunks_per_width c with
  | Some n => let pins := repeat (pin_new max (dg_idle c) (dg_idle c)) n in Value (mkDbiIf d pins pins rate)
  | None => Fails Exception
  end.

(* The level of a pin: DDR4Interface.cpp 182, 184 (idle high, inverted is low);
   LPDDR4Interface.cpp 158, 160 and LPDDR5Interface.cpp 290, 292 (idle low,
   inverted is high). *)
Definition pin_signal (c : dbi_config) (inverted : bool) : pin_state :=
  match dg_idle c with
  | PinH => if inverted then PinL else PinH
  | _ => if inverted then PinH else PinL
  end.
(* handleDBIPinChange: DDR4Interface.cpp 179-186, LPDDR4Interface.cpp 155-162,
   LPDDR5Interface.cpp 287-294.  ev_time is not passed on. *)
Definition pin_change_handler (c : dbi_config) (e : event) (i : dbi_pins_if) : result dbi_pins_if :=
  check (Nat.ltb (ev_index e) (length (di_read i)) || Nat.ltb (ev_index e) (length (di_write i)))
    (let pins := if ev_read e then di_read i else di_write i in
     p <- fetch pins (ev_index e) ;;
     p <- pin_set p (ev_load e) (pin_signal c (ev_inverted e)) 1 ;;
     pins <- put pins (ev_index e) p ;;
     Value (mkDbiIf (di_dbi i) (if ev_read e then pins else di_read i) (if ev_read e then di_write i else pins) (di_rate i))).
(* The calls of the inverter, in order. *)
(* The callback is bound in DDR4Interface.cpp 34-37 and called as in util/dbi.h
   428-448. *)
Definition deliver (c : dbi_config) (evs : list event) (i : dbi_pins_if) : result dbi_pins_if :=
  loop (pin_change_handler c) evs i.
(* Replacement of the inverter's state. *)
(* DDR4Interface.h 100-102; no function of the source. *)
Definition di_with (i : dbi_pins_if) (d : dbi) : dbi_pins_if := mkDbiIf d (di_read i) (di_write i) (di_rate i).

(* handleDBIInterface: DDR4Interface.cpp 188-196, LPDDR4Interface.cpp 164-172,
   LPDDR5Interface.cpp 296-304.  Returns the inverted data, None for nullopt. *)
Definition dbi_if_data (i : dbi_pins_if) (t : N) (n_bits : nat) (data : option (list N)) (read : bool)
  : result (dbi_pins_if * option (list N)) :=
  match data with
  | None => Value (i, None)
  | Some l =>
      if Nat.eqb n_bits 0 || negb (db_enable (di_dbi i)) then Value (i, None)
      else
        u <- dbi_update (di_dbi i) (u64_mul t (di_rate i)) n_bits (Some l) read ;;
        let '(d, evs, out) := u in
        i <- deliver (db_config d) evs (di_with i d) ;;
        Value (i, out)
  end.
(* endOfSimulation: DDR4Interface.cpp 329-331, LPDDR4Interface.cpp 238-240,
   LPDDR5Interface.cpp 369-371.  The time is not multiplied by the data rate. *)
Definition dbi_if_end (i : dbi_pins_if) (t : N) : result dbi_pins_if :=
  r <- dbi_reset_both (di_dbi i) t ;;
  deliver (db_config (fst r)) (snd r) (di_with i (fst r)).
(* The DBI part of getWindowStats: DDR4Interface.cpp 366-371,
   LPDDR4Interface.cpp 256-261, LPDDR5Interface.cpp 387-392; the constant 2 is
   passed as rate there. *)
Definition dbi_if_stats (i : dbi_pins_if) (t rate : N) (read : bool) : result bus_stats :=
  loop (fun p s => x <- pin_stats_at p t rate ;; Value (stats_add s x)) (if read then di_read i else di_write i) stats0.
