(* A single pin with its burst storage.  Models util/pin.h and the
   BitsetContainer half of util/burst_storage.h under
   src/DRAMPower/DRAMPower.  Sizes are nat, times are 64-bit. *)
From Coq Require Import NArith List Bool.
From Verif Require Import Base Bits.
Import ListNotations.
Local Open Scope N_scope.

(* PinState: util/pin_types.h 6-11. *)
Inductive pin_state := PinL | PinH | PinZ.
(* operator== on the enumeration. *)
(* util/pin.h 78, 81, 167. *)
Definition pin_eqb (a b : pin_state) : bool :=
  match a, b with PinL, PinL | PinH, PinH | PinZ, PinZ => true | _, _ => false end.

(* ---- burst_storage<BitsetContainer<max>> ---- *)

(* BitsetContainer: util/burst_storage.h 25-31. *)
Record bit_store := mkBitStore { bt_bits : N; bt_count : nat; bt_load : N }.
(* Default member initialisers: util/burst_storage.h 28-30. *)
Definition bit_store0 : bit_store := mkBitStore 0 0 0.

(* The mask of count, util/burst_storage.h 71-79: all ones, shifted down. *)
Definition bit_mask (max length : nat) : N :=
  let mask := N.ones (N.of_nat max) in
  let mask := if Nat.ltb length max then N.shiftr mask (N.of_nat (max - length)) else mask in
  if Nat.eqb length 0 then 0 else mask.

(* count: util/burst_storage.h 59-110 (prev is never passed by the callers, so
   lines 87-92 are left out). *)
Definition bit_store_count (max : nat) (s : bit_store) (start until : N) : result bus_stats :=
  check (bt_load s <=? start)
    (let length := u64_sub until start in
     let length := if N.of_nat (bt_count s) <? length then N.of_nat (bt_count s) else length in
     let offset := u64_sub start (bt_load s) in
     check (u64_add length offset <=? N.of_nat (bt_count s))
       (let mask := bit_mask max (N.to_nat length) in
        let val := N.land (N.shiftr (bt_bits s) offset) mask in
        let shifted := N.shiftr val 1 in
        let toggles := N.land (N.lxor val shifted) (N.shiftr mask 1) in
        let up := popcount (N.land toggles shifted) in
        Value (mkStats (popcount val) (u64_sub length (popcount val)) (popcount toggles)
                       (u64_sub (popcount toggles) up) up))).

(* push_back with its resize: util/burst_storage.h 112-124. *)
Definition bit_store_push (max : nat) (s : bit_store) (t : N) (b : bool) : result bit_store :=
  let s := if t =? bt_load s then s else mkBitStore (bt_bits s) 0 t in
  check (Nat.leb (bt_count s + 1) max)
    (bits <- set_bit max (bt_bits s) (bt_count s) b ;;
     Value (mkBitStore bits (S (bt_count s)) (bt_load s))).

(* get_burst(n), get_const: util/burst_storage.h 131-134. *)
Definition bit_store_get (s : bit_store) (n : nat) : result bool :=
  check (Nat.ltb n (bt_count s)) (Value (N.testbit (bt_bits s) (N.of_nat (bt_count s - 1 - n)))).

(* endTime: util/burst_storage.h 153-155. *)
Definition bit_store_end (s : bit_store) : N := u64_add (bt_load s) (N.of_nat (bt_count s)).

(* ---- Pin<max> ---- *)

(* Members: util/pin.h 219-229; PinPendingStats is the pair of states
   (17-32). *)
Record pin := mkPin {
  pn_max : nat;
  pn_pend_time : N;
  pn_pend_from : pin_state;
  pn_pend_to : pin_state;
  pn_pend_set : bool;
  pn_stats : bus_stats;
  pn_state : pin_state;
  pn_idle : pin_state;
  pn_init : bool;
  pn_set_at : N;
  pn_store : bit_store
}.

(* Pin(initstate, idlestate): util/pin.h 49-52, 17-32 (pending states L), 219-229.
   *)
Definition pin_new (max : nat) (init idle : pin_state) : pin :=
  mkPin max 0 PinL PinL false stats0 init idle true 0 bit_store0.

(* getPinChangeStats: util/pin.h 72-87. *)
Definition pin_change (from to : pin_state) : bus_stats :=
  if pin_eqb to from then stats0
  else match from, to with
       | PinL, PinH => mkStats 0 0 1 0 1
       | PinH, PinL => mkStats 0 0 1 1 0
       | _, _ => stats0
       end.

(* addPendingStats: util/pin.h 56-61. *)
Definition pin_add_pending (p : pin) (t : N) (s : bus_stats) : bus_stats :=
  if pn_pend_set p && (pn_pend_time p <? t)
  then stats_add s (pin_change (pn_pend_from p) (pn_pend_to p)) else s.

(* The switch at the end of count: util/pin.h 107-119. *)
Definition pin_dwell (until start : N) (state : pin_state) (s : bus_stats) : bus_stats :=
  if start <? until
  then match state with
       | PinL => mkStats (ones s) (u64_add (zeroes s) (u64_sub until start)) (changes s) (o2z s) (z2o s)
       | PinH => mkStats (u64_add (ones s) (u64_sub until start)) (zeroes s) (changes s) (o2z s) (z2o s)
       | PinZ => s
       end
  else s.

(* count: util/pin.h 89-120. *)
Definition pin_count (p : pin) (until start : N) (state : pin_state) (s : bus_stats) : result bus_stats :=
  if until <=? start then Value s
  else
    let store := pn_store p in
    if start <? bit_store_end store then
      c <- bit_store_count (pn_max p) store start until ;;
      let s := stats_add s c in
      let start := bit_store_end store in
      if start <? until then
        last <- bit_store_get store 0 ;;
        Value (pin_dwell until start state (stats_add s (pin_change (if last : bool then PinH else PinL) state)))
      else Value (pin_dwell until start state s)
    else Value (pin_dwell until start state s).

(* set_internal: util/pin.h 121-137. *)
Definition pin_advance (p : pin) (t rate : N) (s : bus_stats) : result bus_stats :=
  let vt := u64_mul t rate in
  check (pn_set_at p <=? vt)
    (let s := if pn_init p && (0 <? vt) then stats_add s (pin_change (pn_state p) (pn_idle p)) else s in
     let s := pin_add_pending p vt s in
     pin_count p vt (pn_set_at p) (pn_idle p) s).

(* set: util/pin.h 142-172.  set_internal multiplies by the data rate again
   (line 146 and line 126). *)
Definition pin_set (p : pin) (t : N) (state : pin_state) (rate : N) : result pin :=
  let vt := u64_mul t rate in
  s <- pin_advance p vt rate (pn_stats p) ;;
  let pend := if pn_pend_set p && (pn_pend_time p <? vt) then false else pn_pend_set p in
  let fresh := negb (pn_set_at p =? vt) || pn_init p in
  let last := if (vt =? u64_add (pn_set_at p) (N.of_nat (bt_count (pn_store p)))) || (pn_init p && (vt =? 0))
              then pn_state p else pn_idle p in
  st <- bit_store_push (pn_max p) (pn_store p) vt (pin_eqb PinH state) ;;
  Value (mkPin (pn_max p)
    (if fresh then vt else pn_pend_time p)
    (if fresh then last else pn_pend_from p)
    (if fresh then state else pn_pend_to p)
    (if fresh then true else pend)
    s state (pn_idle p) false vt st).

(* get_stats_at: util/pin.h 175-195. *)
Definition pin_stats_at (p : pin) (t rate : N) : result bus_stats :=
  let vt := u64_mul t rate in
  check (pn_set_at p <=? vt)
    (if vt =? pn_set_at p then Value (pn_stats p)
     else
       let s := pn_stats p in
       let s := if pn_init p && (0 <? vt) then stats_add s (pin_change (pn_state p) (pn_idle p)) else s in
       let s := pin_add_pending p vt s in
       pin_count p vt (pn_set_at p) (pn_idle p) s).
