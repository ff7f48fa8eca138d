(* Data bus inversion.  Models util/dbi.h, util/dbialgos.h and util/dbihelpers.h
   under src/DRAMPower/DRAMPower.  The template parameters become fields of a
   configuration; a data entry is a number below 2^digits; sizes and indices are
   nat; times are 64-bit.  The callback is not called but its arguments are
   collected in a list, in the order of the calls. *)
From Coq Require Import NArith List Bool.
From Verif Require Import Base Bits PinModel.
Import ListNotations.
Local Open Scope N_scope.

(* StaticDBI and DynamicDBI<threshold>: util/dbialgos.h 29, 60-61. *)
Inductive dbi_alg := Static | Dynamic (threshold : N).

(* Template parameters (util/dbi.h 31, 41-42) and constructor arguments (181).
   dg_callback: whether a callback is given.  dg_grow n: the capacity of the
   std::vector<bool> after it has been grown to n elements, which the C++
   standard leaves open. *)
Record dbi_config := mkDbiConfig {
  dg_digits : nat;
  dg_sub : nat;
  dg_idle : pin_state;
  dg_alg : dbi_alg;
  dg_width : option nat;
  dg_length : nat;
  dg_callback : bool;
  dg_grow : nat -> nat
}.
(* ChunkSize: util/dbi.h 42. *)
Definition chunk_size (c : dbi_config) : nat := (dg_sub c * dg_digits c)%nat.
(* getChunksPerWidth: util/dbi.h 232-234. *)
Definition chunks_per_width (c : dbi_config) : option nat :=
  match dg_width c with Some w => Some (Nat.div w (chunk_size c)) | None => None end.

(* Arguments of one call of the callback: util/dbi.h 59-61. *)
Record event := mkEvent { ev_load : N; ev_time : N; ev_index : nat; ev_inverted : bool; ev_read : bool }.

(* LastBurst_t: util/dbi.h 145-153 (m_n_bits is never read).  lb_inv is
   m_inversions, lb_cap its capacity. *)
Record lastburst := mkLast {
  lb_start : N; lb_end : N; lb_chunks : nat; lb_init : bool;
  lb_inv : list bool; lb_cap : nat; lb_beat : list N
}.
(* Default member initialisers: util/dbi.h 145-153. *)
Definition lastburst0 : lastburst := mkLast 0 0 0 false [] 0 [].

(* Members: util/dbi.h 457-469. *)
Record dbi := mkDbi {
  db_config : dbi_config;
  db_enable : bool;
  db_read : lastburst;
  db_write : lastburst;
  db_last_read : bool;
  db_data : list N
}.

(* DBI(busWidth, burstLength, func, enable): util/dbi.h 181-190. *)
Definition dbi_new (c : dbi_config) (enable : bool) : result dbi :=
  check match dg_width c with Some w => Nat.eqb (Nat.modulo w (chunk_size c)) 0 | None => true end
    (Value (mkDbi c enable lastburst0 lastburst0 false [])).

(* Selection of the read or write members: util/dbi.h 249-250. *)
Definition db_side (d : dbi) (read : bool) : lastburst := if read then db_read d else db_write d.
(* With db_side: Selection of the read or write members: util/dbi.h 249-250. *)
Definition db_put (d : dbi) (read : bool) (b : lastburst) : dbi :=
  mkDbi (db_config d) (db_enable d) (if read then b else db_read d) (if read then db_write d else b)
        (db_last_read d) (db_data d).

(* ~ on an entry: all bits of the data type change. *)
(* util/dbi.h 197. *)
Definition flip_entry (c : dbi_config) (v : N) : N := N.lxor v (N.ones (N.of_nat (dg_digits c))).
(* getIdlePattern(busWidth): util/dbi.h 168-178. *)
Definition idle_data (c : dbi_config) (w : nat) : list N :=
  repeat (match dg_idle c with PinH => N.ones (N.of_nat (dg_digits c)) | _ => 0 end) (Nat.div w (dg_digits c)).

(* v[i] = x on a std::vector: undefined beyond the size. *)
(* As in util/dbi.h 197, 428-448. *)
Definition put {A} (l : list A) (i : nat) (x : A) : result (list A) :=
  if Nat.ltb i (length l) then Value (upd i (fun _ => x) l) else Fails UB.
(* v[i] as a value. *)
(* As in util/dbi.h 197, 428-448. *)
Definition fetch {A} (l : list A) (i : nat) : result A :=
  match nth_error l i with Some x => Value x | None => Fails UB end.

(* dispatchResetCallback(timestamp, read): util/dbi.h 400-451; the assert is line
   404.  The loops of lines 428-436 and 442-448 have the same body. *)
Definition reset_chunk (t tend : N) (read : bool) (index : nat -> nat) (chunk : nat) (s : list bool * list event)
  : result (list bool * list event) :=
  b <- fetch (fst s) chunk ;;
  inv <- put (fst s) chunk false ;;
  Value (inv, snd s ++ (if b : bool then [mkEvent t tend (index chunk) false read] else [])).
(* With reset_chunk: dispatchResetCallback(timestamp, read): util/dbi.h 400-451;
   the assert is line 404.  The loops of lines 428-436 and 442-448 have the same
   body. *)
Definition dbi_reset (d : dbi) (t : N) (read : bool) : result (dbi * list event) :=
  let c := db_config d in
  let b := db_side d read in
  check (negb (lb_init b) || match chunks_per_width c with Some n => Nat.leb n (lb_chunks b) | None => true end)
    (if negb (lb_init b) then Value (d, [])
     else if t <? lb_end b then Value (d, [])
     else if lb_end b =? t then Value (d, [])
     else if dg_callback c then
       s <- match chunks_per_width c with
            | Some n => loop (reset_chunk t (lb_end b) read (fun k => Nat.modulo k n))
                             (seq (lb_chunks b - n) n) (lb_inv b, [])
            | None => loop (reset_chunk t (lb_end b) read (fun k => k)) (seq 0 (lb_chunks b)) (lb_inv b, [])
            end ;;
       Value (db_put d read (mkLast (lb_start b) (lb_end b) (lb_chunks b) (lb_init b) (fst s) (lb_cap b) (lb_beat b)), snd s)
     else Value (d, [])).
(* dispatchResetCallback(timestamp): util/dbi.h 313-316. *)
Definition dbi_reset_both (d : dbi) (t : N) : result (dbi * list event) :=
  r <- dbi_reset d t true ;;
  w <- dbi_reset (fst r) t false ;;
  Value (fst w, snd r ++ snd w).

(* The condition shared by saveLastBurst and createPreviousIterator: util/dbi.h
   354-355, 366-367; it looks at the size of m_invertedData. *)
Definition seamless (c : dbi_config) (data : list N) (t : N) (b : lastburst) : bool :=
  lb_init b && (lb_end b =? t) &&
  match dg_width c with
  | Some w => negb (u64_sub (lb_end b) (lb_start b) =? 0) && Nat.ltb (Nat.div w (dg_digits c)) (length data)
  | None => false
  end.
(* saveLastBurst: util/dbi.h 353-363. *)
Definition save_last (c : dbi_config) (data : list N) (t : N) (b : lastburst) : lastburst :=
  if seamless c data t b
  then match dg_width c with
       | Some w => mkLast (lb_start b) (lb_end b) (lb_chunks b) (lb_init b) (lb_inv b) (lb_cap b)
                          (skipn (length data - Nat.div w (dg_digits c)) data)
       | None => b
       end
  else b.
(* createPreviousIterator: util/dbi.h 365-385: the part in front of the current
   burst, None when there is no previous iterator.  The end iterators are never
   compared, but computing m_invertedData.end() - width/digits is undefined when
   the burst is shorter than one beat. *)
Definition previous_data (c : dbi_config) (data : list N) (t : N) (b : lastburst) : result (option (list N)) :=
  if seamless c data t b then Value (Some (lb_beat b))
  else match dg_width c with
       | Some w => if Nat.leb (Nat.div w (dg_digits c)) (length data) then Value (Some (idle_data c w)) else Fails UB
       | None => Value None
       end.

(* dispatchCallback: util/dbi.h 387-398. *)
Definition announce (c : dbi_config) (t : N) (chunk : nat) (inverted read : bool) : result (list event) :=
  if dg_callback c then
    match chunks_per_width c with
    | None => Value [mkEvent t t chunk inverted read]
    | Some n => if Nat.eqb n 0 then Fails UB
                else Value [mkEvent t (u64_add t (N.of_nat (Nat.div chunk n))) (Nat.modulo chunk n) inverted read]
    end
  else Value [].

(* invertChunk: util/dbi.h 194-199. *)
Definition invert_chunk (c : dbi_config) (data : list N) (chunk : nat) : result (list N) :=
  loop (fun i data => v <- fetch data i ;; put data i (flip_entry c v)) (seq (chunk * dg_sub c) (dg_sub c)) data.

(* State of computeDBI: m_invertedData, the iterator's m_current_chunk_idx and
   m_current_data_idx (util/dbihelpers.h 145-148), two counters (ones and zeros,
   or costnormal), lastInvert and the calls made so far. *)
Record scan := mkScan {
  sc_data : list N; sc_chunk : nat; sc_sub : nat; sc_a : N; sc_b : N; sc_inv : list bool; sc_events : list event
}.

(* invert_visitor: util/dbi.h 278-288. *)
Definition visit (c : dbi_config) (t : N) (read inverted : bool) (s : scan) : result scan :=
  ev <- announce c t (sc_chunk s) inverted read ;;
  inv <- put (sc_inv s) (sc_chunk s) inverted ;;
  data <- (if inverted then invert_chunk c (sc_data s) (sc_chunk s) else Value (sc_data s)) ;;
  Value (mkScan data (sc_chunk s) (sc_sub s) (sc_a s) (sc_b s) inv (sc_events s ++ ev)).

(* SubChunkView::last: util/dbihelpers.h 121-123. *)
Definition is_last (c : dbi_config) (s : scan) : bool := Nat.eqb (Nat.modulo (sc_sub s) (dg_sub c)) 0.
(* SubChunkView::operator++: util/dbihelpers.h 98-106. *)
Definition next_entry (c : dbi_config) (s : scan) : scan :=
  if Nat.leb (dg_sub c) (S (sc_sub s))
  then mkScan (sc_data s) (S (sc_chunk s)) 0 (sc_a s) (sc_b s) (sc_inv s) (sc_events s)
  else mkScan (sc_data s) (sc_chunk s) (S (sc_sub s)) (sc_a s) (sc_b s) (sc_inv s) (sc_events s).
(* The counters. *)
(* ones and zeros, costnormal: util/dbialgos.h 41-42, 52-53, 81, 92. *)
Definition set_counters (s : scan) (a b : N) : scan :=
  mkScan (sc_data s) (sc_chunk s) (sc_sub s) a b (sc_inv s) (sc_events s).

(* Loop body of StaticDBI::computeDBI: util/dbialgos.h 43-55. *)
Definition static_step (c : dbi_config) (t : N) (read : bool) (i : nat) (s : scan) : result scan :=
  v <- fetch (sc_data s) i ;;
  let a := sc_a s + popcount v in
  let b := sc_b s + (N.of_nat (dg_digits c) - popcount v) in
  if is_last c s then
    let inverted := match dg_idle c with PinL => b <? a | PinH => a <? b | PinZ => false end in
    s <- visit c t read inverted (set_counters s a b) ;;
    Value (next_entry c (set_counters s 0 0))
  else Value (next_entry c (set_counters s a b)).

(* ConcatIterator::operator* and operator++ (util/dbihelpers.h 28-41) after i
   steps: entry i of the previous beat followed by the current data, which is
   read as it is now. *)
Definition concat_entry (prev data : list N) (i : nat) : result N :=
  if Nat.ltb i (length prev) then fetch prev i else fetch data (i - length prev).
(* Loop body of DynamicDBI::computeDBI: util/dbialgos.h 75-78 without previous
   data, 82-94 with. *)
Definition dynamic_step (c : dbi_config) (threshold : N) (prev : option (list N)) (t : N) (read : bool) (i : nat) (s : scan)
  : result scan :=
  match prev with
  | None => s <- visit c t read false s ;; Value (next_entry c s)
  | Some prev =>
      v <- fetch (sc_data s) i ;;
      p <- concat_entry prev (sc_data s) i ;;
      let a := sc_a s + popcount (N.lxor v p) in
      if is_last c s then
        s <- visit c t read (threshold <? a) (set_counters s a 0) ;;
        Value (next_entry c (set_counters s 0 0))
      else Value (next_entry c (set_counters s a 0))
  end.
(* computeDBI of the selected algorithm: util/dbi.h 291-294. *)
Definition compute (c : dbi_config) (prev : option (list N)) (t : N) (read : bool) (s : scan) : result scan :=
  loop (match dg_alg c with Static => static_step c t read | Dynamic k => dynamic_step c k prev t read end)
       (seq 0 (length (sc_data s))) s.

(* lastInvert.resize when the capacity is too small: util/dbi.h 272-275. *)
Definition grow_inversions (c : dbi_config) (b : lastburst) (n : nat) : list bool * nat :=
  if Nat.ltb (lb_cap b) n
  then (firstn n (lb_inv b) ++ repeat false (n - length (lb_inv b)), dg_grow c n)
  else (lb_inv b, lb_cap b).

(* updateDBI: util/dbi.h 245-300; update: 91-100.  None is nullopt; data is None
   for a null pointer and otherwise the memory behind the pointer. *)
Definition dbi_update (d : dbi) (t : N) (n_bits : nat) (data : option (list N)) (read : bool)
  : result (dbi * list event * option (list N)) :=
  let c := db_config d in
  match data with
  | None => Value (d, [], None)
  | Some data =>
    if Nat.eqb n_bits 0 || negb (db_enable d) || pin_eqb PinZ (dg_idle c) then Value (d, [], None)
    else
      r <- dbi_reset d t read ;;
      let d := fst r in
      check (Nat.eqb (Nat.modulo n_bits (dg_digits c)) 0)
        (let n := Nat.div n_bits (dg_digits c) in
         let b := save_last c (db_data d) t (db_side d read) in
         if Nat.ltb (length data) n then Fails UB else
         let data := firstn n data in
         prev <- previous_data c data t b ;;
         check (Nat.eqb (Nat.modulo n_bits (chunk_size c)) 0)
           (let chunks := Nat.div n_bits (chunk_size c) in
            let (inv, cap) := grow_inversions c b chunks in
            s <- compute c prev t read (mkScan data 0 0 0 0 inv []) ;;
            tend <- match dg_width c with
                    | Some w => if Nat.eqb w 0 then Fails UB else Value (u64_add t (N.of_nat (Nat.div n_bits w)))
                    | None => Value (u64_add t (N.of_nat (dg_length c)))
                    end ;;
            let b := mkLast t tend chunks true (sc_inv s) cap (lb_beat b) in
            let d := db_put d read b in
            Value (mkDbi c (db_enable d) (db_read d) (db_write d) read (sc_data s), snd r ++ sc_events s, Some (sc_data s))))
  end.
