(* The bus with its burst storage, and the clock.  Models util/burst_storage.h
   (BusContainer), util/bus.h and util/clock.h under
   src/DRAMPower/DRAMPower.  Sizes and indices of containers are nat: that a
   size_t of a container wraps is not modelled.  Times are 64-bit. *)
From Coq Require Import NArith List Bool.
From Verif Require Import Base Bits.
Import ListNotations.
Local Open Scope N_scope.

(* ---- burst_storage<BusContainer<max>> ---- *)

(* BusContainer: util/burst_storage.h 33-40. *)
Record container := mkContainer {
  bc_bursts : list N;
  bc_width : nat;
  bc_count : nat;
  bc_load : N
}.
(* burst_storage(width), init: util/burst_storage.h 199-201, 343-347. *)
Definition storage_new (width : nat) : container := mkContainer [] width 0 0.
(* resize: util/burst_storage.h 235-239; new entries are zero. *)
Definition storage_resize (c : container) (n : nat) : container :=
  mkContainer (bc_bursts c ++ repeat 0 (n - length (bc_bursts c))) (bc_width c) (bc_count c) (bc_load c).
(* get_or_add(index) returns a reference (util/burst_storage.h 358-361, 251-254);
   reading through it and writing through it are two functions here. *)
Definition storage_read (c : container) (i : nat) : N := nth i (bc_bursts c) 0.
(* With storage_read: get_or_add(index) returns a reference (util/burst_storage.h
   358-361, 251-254); reading through it and writing through it are two functions
   here. *)
Definition storage_write (c : container) (i : nat) (v : N) : container :=
  mkContainer (upd i (fun _ => v) (bc_bursts c)) (bc_width c) (bc_count c) (bc_load c).
(* get_burst, get_const: util/burst_storage.h 370-372, 256-259: counts from the
   end. *)
Definition storage_get (c : container) (n : nat) : result N :=
  check (Nat.ltb n (bc_count c))
    match nth_error (bc_bursts c) (bc_count c - 1 - n) with
    | Some b => Value b
    | None => Fails UB
    end.
(* clear: util/burst_storage.h 265-268, 374-376. *)
Definition storage_clear (c : container) : container :=
  mkContainer (bc_bursts c) (bc_width c) 0 0.
(* endTime: util/burst_storage.h 278-280, 382-384. *)
Definition storage_end (c : container) : N := u64_add (bc_load c) (N.of_nat (bc_count c)).
(* setLoadTime and setCount: util/burst_storage.h 274-276, 282-284. *)
Definition storage_finish (c : container) (t : N) (n : nat) : container :=
  mkContainer (bc_bursts c) (bc_width c) n t.

(* BurstStorageInsertHelper::insert_data: util/burst_storage.h 398-421.
   The state of the loops is the storage, byte_index and bit_index. *)
Record cursor := mkCursor { cu_store : container; cu_byte : nat; cu_bit : nat }.
(* Inner loop body, lines 408-416. *)
Definition insert_bit (max : nat) (data : list N) (n_bits i off : nat) (invert : bool) (j : nat) (c : cursor)
  : result cursor :=
  if Nat.ltb (off + j) n_bits then
    match nth_error data (cu_byte c) with
    | None => Fails UB
    | Some byte =>
        let v := N.testbit byte (N.of_nat (Nat.modulo (cu_bit c) 8)) in
        b <- set_bit max (storage_read (cu_store c) i) j (if invert then negb v else v) ;;
        let bit := S (cu_bit c) in
        Value (mkCursor (storage_write (cu_store c) i b)
                        (if Nat.eqb (Nat.modulo bit 8) 0 then S (cu_byte c) else cu_byte c) bit)
    end
  else Value c.
(* Outer loop body, lines 404-417. *)
Definition insert_burst (max width : nat) (data : list N) (n_bits : nat) (invert : bool) (i : nat) (c : cursor)
  : result cursor :=
  let c := mkCursor (storage_resize (cu_store c) (S i)) (cu_byte c) (cu_bit c) in
  loop (insert_bit max data n_bits i (i * width) invert) (seq 0 width) c.
(* insert_data as a whole: util/burst_storage.h 399-420. *)
Definition insert_data (max : nat) (c : container) (t : N) (width : nat) (data : list N) (n_bits : nat)
  (invert : bool) : result container :=
  match width with
  | O => Fails UB
  | _ =>
      let n := Nat.div n_bits width in
      cu <- loop (insert_burst max width data n_bits invert) (seq 0 n) (mkCursor c 0 0) ;;
      Value (storage_finish (cu_store cu) t n)
  end.

(* ---- Bus ---- *)

(* BusIdlePatternSpec: util/bus_types.h 13-17. *)
Inductive idle_spec := IdleL | IdleH.

(* Members of Bus<max>: util/bus.h 36-54. *)
Record bus := mkBus {
  b_max : nat;
  b_stats : bus_stats;
  b_store : container;
  b_last_load : N;
  b_enabled : bool;
  b_disabled_at : N;
  b_width : nat;
  b_datarate : N;
  b_pending : pending;
  b_last : N;
  b_idle_stats : bus_stats;
  b_idle : N
}.

(* diff: util/bus.h 250-258. *)
Definition bus_diff (width : nat) (high low : N) : bus_stats :=
  let o := u64_add 0 (popcount low) in
  mkStats o (u64_add 0 (u64_sub (N.of_nat width) o)) (u64_add 0 (bit_changes high low))
          (u64_add 0 (one_to_zeroes high low)) (u64_add 0 (zero_to_ones high low)).

(* Idle pattern of the constructor: util/bus.h 67-81. *)
Definition idle_burst (max width : nat) (i : idle_spec) : result N :=
  match i with
  | IdleL => Value 0
  | IdleH => loop (fun j b => set_bit max b j true) (seq 0 width) 0
  end.

(* Bus(width, datarate, idle_pattern, enableflag): util/bus.h 56-88. *)
Definition bus_new (max width : nat) (datarate : N) (i : idle_spec) (enabled : bool) : result bus :=
  b <- idle_burst max width i ;;
  let s := bus_diff width b b in
  Value (mkBus max stats0 (storage_new width) 0 enabled 0 width datarate
               (if enabled then set_pending 0 s else pending0) b s b).

(* at: util/bus.h 182-190. *)
Definition bus_at (b : bus) (n : N) : result N :=
  check (b_last_load b <=? n)
    (if N.of_nat (bc_count (b_store b)) <=? n - b_last_load b then Value (b_idle b)
     else storage_get (b_store b) (N.to_nat (n - b_last_load b))).

(* Iterations t = from, from + 1, ..., below [below] of a for loop. *)
Definition times (from below : N) : list N :=
  map (fun k => from + N.of_nat k) (seq 0 (N.to_nat (below - from))).

(* diff(at(x), at(y)) added to the statistics. *)
(* util/bus.h 98, 103, 250-257. *)
Definition bus_step (b : bus) (x y : N) (s : bus_stats) : result bus_stats :=
  p <- bus_at b x ;; q <- bus_at b y ;; Value (stats_add s (bus_diff (b_width b) p q)).

(* advance_stats: util/bus.h 92-109. *)
Definition advance_stats (b : bus) (vt : N) (s : bus_stats) : result bus_stats :=
  let e := storage_end (b_store b) in
  let lb := N.min e vt in
  s1 <- loop (fun t s => bus_step b t (u64_add t 1) s)
             (if lb =? 0 then [] else times (b_last_load b) (lb - 1)) s ;;
  s2 <- (if (e <? vt) && (0 <? e) then bus_step b (e - 1) e s1 else Value s1) ;;
  Value (if e <? vt then stats_add s2 (stats_mul (u64_sub (u64_sub vt e) 1) (b_idle_stats b)) else s2).

(* Member updates used below. *)
(* The members are those of util/bus.h 36-54; no function of the source. *)
Definition with_stats (b : bus) (s : bus_stats) (p : pending) (l : N) : bus :=
  mkBus (b_max b) s (b_store b) (b_last_load b) (b_enabled b) (b_disabled_at b) (b_width b) (b_datarate b)
        p l (b_idle_stats b) (b_idle b).
(* As with_stats: m_burst_storage and last_load, util/bus.h 36-54. *)
Definition with_store (b : bus) (c : container) (ll : N) : bus :=
  mkBus (b_max b) (b_stats b) c ll (b_enabled b) (b_disabled_at b) (b_width b) (b_datarate b)
        (b_pending b) (b_last b) (b_idle_stats b) (b_idle b).
(* As with_stats: the members that enable and disable change, util/bus.h 36-54,
   194-248. *)
Definition with_enable (b : bus) (e : bool) (d ll : N) (p : pending) : bus :=
  mkBus (b_max b) (b_stats b) (b_store b) ll e d (b_width b) (b_datarate b)
        p (b_last b) (b_idle_stats b) (b_idle b).

(* add_previous_stats: util/bus.h 111-126. *)
Definition add_previous_stats (b : bus) (vt : N) : result bus :=
  check (pd_time (b_pending b) <=? vt)
    (let due := pd_set (b_pending b) && (pd_time (b_pending b) <? vt) in
     let s := if due then stats_add (b_stats b) (pd_stats (b_pending b)) else b_stats b in
     let p := if due then clear_pending (b_pending b) else b_pending b in
     s' <- advance_stats b vt s ;;
     l <- (if 0 <? vt then bus_at b (vt - 1) else Value (b_last b)) ;;
     Value (with_stats b s' p l)).

(* add_data: util/bus.h 128-143. *)
Definition add_data (b : bus) (vt : N) (data : list N) (n_bits : nat) : result bus :=
  c <- insert_data (b_max b) (b_store b) vt (b_width b) data n_bits false ;;
  let b := with_store b c (b_last_load b) in
  q <- bus_at b (b_last_load b) ;;
  let p := set_pending vt (bus_diff (b_width b) (b_last b) q) in
  l <- (match bc_count c with O => Value (b_last b) | S n => storage_get c n end) ;;
  Value (with_stats b (b_stats b) p l).

(* load(timestamp, bytes, n_bits): util/bus.h 146-165. *)
Definition bus_load (b : bus) (t : N) (data : list N) (n_bits : nat) : result bus :=
  if b_enabled b then
    if b_datarate b =? 0 then Fails UB else
    check (t <=? (two64 - 1) / b_datarate b)
      (let vt := u64_mul t (b_datarate b) in
       check (u64_add (b_last_load b) (N.of_nat (bc_count (b_store b))) <=? vt)
         (b <- add_previous_stats b vt ;;
          let b := with_store b (storage_clear (b_store b)) vt in
          add_data b vt data n_bits))
  else Value b.

(* load(timestamp, uint64_t, burst_length): util/bus.h 167-180. *)
Definition bytes_of_word (n_bytes : nat) (w : N) : list N :=
  map (fun i => N.land (N.shiftr w (8 * N.of_nat i)) 255) (seq 0 n_bytes).
(* With bytes_of_word: load(timestamp, uint64_t, burst_length): util/bus.h
   167-180. *)
Definition bus_load_word (b : bus) (t w : N) (burst_length : nat) : result bus :=
  let n_bits := (burst_length * b_width b)%nat in
  check (Nat.leb n_bits 64) (bus_load b t (bytes_of_word (Nat.div (n_bits + 7) 8) w) n_bits).

(* disable: util/bus.h 193-209; returns the bus and the time. *)
Definition bus_disable (b : bus) (t : N) : result (bus * N) :=
  let vt := u64_mul t (b_datarate b) in
  if b_enabled b then
    check (b_last_load b <=? vt)
      (let b := with_enable b true vt (b_last_load b) (b_pending b) in
       b <- add_previous_stats b vt ;;
       let b := with_store b (storage_clear (b_store b)) vt in
       if b_datarate b =? 0 then Fails UB else
       Value (with_enable b false vt vt (b_pending b), vt / b_datarate b))
  else check (b_disabled_at b <=? vt) (Value (b, t)).

(* enable: util/bus.h 211-221. *)
Definition bus_enable (b : bus) (t : N) : result bus :=
  let vt := u64_mul t (b_datarate b) in
  if b_enabled b then Value b
  else check (b_disabled_at b <? vt)
         (Value (with_enable b true (b_disabled_at b) vt (set_pending vt (b_idle_stats b)))).

(* get_stats: util/bus.h 226-248. *)
Definition bus_get_stats (b : bus) (t : N) : result bus_stats :=
  let vt := u64_mul t (b_datarate b) in
  check (b_last_load b <=? vt)
    (if vt =? 0 then Value (b_stats b) else
     let s := if pd_set (b_pending b) && (pd_time (b_pending b) <? vt)
              then stats_add (b_stats b) (pd_stats (b_pending b)) else b_stats b in
     if b_enabled b then advance_stats b vt s else Value s).

(* ---- Clock ---- *)

(* Members of Clock: util/clock.h 20-22. *)
Record clock := mkClock { ck_start : option N; ck_stats : bus_stats; ck_rate : N }.
(* count: util/clock.h 25-37. *)
Definition clock_count (rate d : N) : bus_stats :=
  let h := u64_mul d rate / 2 in mkStats h h (u64_add h h) h h.
(* Clock(dataRate, stopped): util/clock.h 40-47. *)
Definition clock_new (rate : N) (stopped : bool) : clock :=
  mkClock (if stopped then None else Some 0) stats0 rate.
(* stop: util/clock.h 50-57. *)
Definition clock_stop (c : clock) (t : N) : result clock :=
  match ck_start c with
  | None => Fails Assertion
  | Some s => check (s <? t)
                (Value (mkClock None (stats_add (ck_stats c) (clock_count (ck_rate c) (u64_sub t s))) (ck_rate c)))
  end.
(* start: util/clock.h 59-63. *)
Definition clock_start (c : clock) (t : N) : result clock :=
  match ck_start c with
  | None => Value (mkClock (Some t) (ck_stats c) (ck_rate c))
  | Some _ => Fails Assertion
  end.
(* get_stats_at: util/clock.h 65-74. *)
Definition clock_get (c : clock) (t : N) : bus_stats :=
  match ck_start c with
  | None => ck_stats c
  | Some s => stats_add (ck_stats c) (clock_count (ck_rate c) (u64_sub t s))
  end.
