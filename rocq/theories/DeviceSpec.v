(* Reference machine for the cycle statistics (C02, C03, C08, C09, C12, C13).

   It describes what state one rank of a DRAM is in during clock cycle n.  It
   has no interval counters and no queue of implicit commands: a bank is closed,
   open, about to be closed by auto-precharge, or being refreshed; the rank is
   up, in one of the low-power modes, or about to change mode.  Statistics are
   obtained by looking at every cycle before t and counting.

   Nothing here refers to the handlers of the model. *)
From Coq Require Import NArith List Bool.
From Verif Require Import Base Command CoreModel HistorySpec.
Import ListNotations.
Local Open Scope N_scope.

Inductive bstate :=
| Closed
| Open
| Closing (at_ : N)        (* row open, closed by auto-precharge at this time *)
| Refreshing (until : N).

Record sbank := mkSb {
  sb_state : bstate;
  sb_since : option N;  (* when it last became active, if it ever was activated *)
  sb_pre : option N;    (* when it was last precharged *)
  sb_off : option N     (* when it last became inactive *)
}.

Inductive smode := Up | ActPd | PrePd | SelfRef | DeepSleep.
Scheme Equality for smode.

Record device := mkDev {
  dv_banks : list sbank;
  dv_mode : smode;
  dv_pend : option (N * smode)   (* a mode change that is under way *)
}.

Definition device_new (p : memspec) : device :=
  mkDev (repeat (mkSb Closed None None None) (ms_banks p)) Up None.

(* A bank draws active current when a row is open or a refresh is running. *)
Definition busy (b : sbank) : bool :=
  match sb_state b with Closed => false | _ => true end.

Definition is_closed (b : sbank) : bool :=
  match sb_state b with Closed => true | _ => false end.
Definition is_open (b : sbank) : bool :=
  match sb_state b with Open => true | _ => false end.
(* Nothing will happen to the bank by itself. *)
Definition is_stable (b : sbank) : bool := is_closed b || is_open b.

(* ---- passing of time ---- *)

Definition settle_bank (t : N) (b : sbank) : sbank :=
  match sb_state b with
  | Closing c => if c <=? t then mkSb Closed (sb_since b) (Some c) (Some c) else b
  | Refreshing e => if e <=? t then mkSb Closed (sb_since b) (sb_pre b) (Some e) else b
  | _ => b
  end.

(* Leaving active power-down at x restarts the clock of the open banks. *)
Definition wake_bank (x : N) (b : sbank) : sbank :=
  match sb_state b with
  | Open => mkSb Open (Some x) (sb_pre b) (sb_off b)
  | _ => b
  end.

Definition settle (t : N) (d : device) : device :=
  let bs := map (settle_bank t) (dv_banks d) in
  match dv_pend d with
  | Some (x, m) =>
      if x <=? t
      then mkDev (match dv_mode d with ActPd => map (wake_bank x) bs | _ => bs end) m None
      else mkDev bs (dv_mode d) (dv_pend d)
  | None => mkDev bs (dv_mode d) None
  end.

(* ---- commands ---- *)

Fixpoint mapi {A B} (i : nat) (f : nat -> A -> B) (l : list A) : list B :=
  match l with
  | [] => []
  | x :: r => f i x :: mapi (S i) f r
  end.

(* Apply g to the banks a command addresses. *)
Definition touch (p : memspec) (c : Command) (g : sbank -> sbank) (bs : list sbank) : list sbank :=
  mapi 0 (fun i b => if footprint p c i then g b else b) bs.

(* All addressed banks satisfy P. *)
Definition addressed (p : memspec) (c : Command) (P : sbank -> bool) (bs : list sbank) : bool :=
  forallb (fun x => x) (mapi 0 (fun i b => if footprint p c i then P b else true) bs).

Definition open_bank (t : N) (b : sbank) : sbank := mkSb Open (Some t) (sb_pre b) (sb_off b).
Definition close_bank (t : N) (b : sbank) : sbank :=
  if is_open b then mkSb Closed (sb_since b) (Some t) (Some t) else b.
Definition refresh_bank (t e : N) (b : sbank) : sbank :=
  mkSb (Refreshing e) (match sb_since b with Some _ => Some t | None => None end)
       (sb_pre b) (sb_off b).
Definition autoclose_bank (p : memspec) (t off : N) (b : sbank) : sbank :=
  mkSb (Closing (N.max (match sb_since b with Some s => s + ms_tRAS p | None => 0 end) (t + off)))
       (sb_since b) (sb_pre b) (sb_off b).

(* Activate-to-access delay. *)
Definition act_delay (p : memspec) : N :=
  match ms_std p with LPDDR6 => N.max (ms_tRCD p) (ms_tRCDW p) | _ => ms_tRCD p end.

(* Time from which a bank permits a power-down transition. *)
Definition bank_ready (p : memspec) (b : sbank) : N :=
  N.max (match sb_since b with Some s => s + act_delay p | None => 0 end)
    (N.max (match sb_pre b with Some x => x + ms_tRP p | None => 0 end)
           (match sb_state b with Refreshing e => e | _ => 0 end)).
Definition ready (p : memspec) (bs : list sbank) : N := fold_right N.max 0 (map (bank_ready p) bs).

(* Before e the bank has become and stays closed; in the first form strictly
   before. *)
Definition closed_before (e : N) (b : sbank) : bool :=
  match sb_state b with
  | Closed => match sb_off b with Some x => x <? e | None => true end
  | Closing c | Refreshing c => c <? e
  | Open => false
  end.
Definition closed_by (e : N) (b : sbank) : bool :=
  match sb_state b with
  | Closed => true
  | Closing c | Refreshing c => c <=? e
  | Open => false
  end.

(* Addresses in range; two-bank refreshes name two different banks. *)
Definition well_addressed (p : memspec) (c : Command) : bool :=
  match cmd_type c with
  | ACT | PRE | RD | WR | RDA | WRA | REFB | PRESB | REFSB => Nat.ltb (addr c) (ms_banks p)
  | REFP2B =>
      let b2 := Nat.modulo (addr c + ms_p2bOffset p) 16 in
      Nat.ltb (addr c) (ms_banks p) && Nat.ltb b2 (ms_banks p) && negb (Nat.eqb (addr c) b2)
  | REFDB =>
      let b2 := N.to_nat (cmd_dbank c) in
      Nat.ltb (addr c) (ms_banks p) && Nat.ltb b2 (ms_banks p) && negb (Nat.eqb (addr c) b2)
  | _ => true
  end.

(* Which commands a standard has. *)
Definition in_standard (p : memspec) (k : CmdType) : bool :=
  match k, ms_std p with
  | (PRESB | REFSB | NOP), DDR5 => true
  | (PRESB | REFSB | NOP), _ => false
  | REFB, (LPDDR4 | LPDDR5) => true
  | REFB, _ => false
  | REFP2B, LPDDR5 => negb (ms_m8b p)
  | REFP2B, _ => false
  | REFDB, LPDDR6 => true
  | REFDB, _ => false
  | (DSMEN | DSMEX), LPDDR5 => true
  | (DSMEN | DSMEX), _ => false
  | COUNT, _ => false
  | _, _ => true
  end.

Definition with_banks (bs : list sbank) (d : device) : device := mkDev bs (dv_mode d) (dv_pend d).
Definition with_mode (m : smode) (d : device) : device := mkDev (dv_banks d) m (dv_pend d).
Definition with_pend (x : N) (m : smode) (d : device) : device := mkDev (dv_banks d) (dv_mode d) (Some (x, m)).

Definition guard {A} (b : bool) (x : A) : option A := if b then Some x else None.

(* A command given to a rank that is up. *)
Definition up_command (p : memspec) (c : Command) (d : device) : option device :=
  let t := cmd_ts c in
  let bs := dv_banks d in
  let refresh tm := guard (addressed p c is_closed bs)
                          (with_banks (touch p c (refresh_bank t (t + tm)) bs) d) in
  let entry := N.max t (ready p bs) in
  match cmd_type c with
  | ACT => guard (addressed p c is_closed bs) (with_banks (touch p c (open_bank t) bs) d)
  | PRE | PREA | PRESB =>
      guard (addressed p c is_stable bs) (with_banks (touch p c (close_bank t) bs) d)
  | RD | WR => guard (addressed p c is_open bs) d
  | RDA => guard (addressed p c is_open bs)
                 (with_banks (touch p c (autoclose_bank p t (ms_offRD p)) bs) d)
  | WRA => guard (addressed p c is_open bs)
                 (with_banks (touch p c (autoclose_bank p t (ms_offWR p)) bs) d)
  | REFA => refresh (ms_tRFC p)
  | REFSB => refresh (ms_tRFCsb p)
  | REFB | REFP2B => refresh (ms_tRFCPB p)
  | REFDB => refresh (ms_tRFCDB p)
  | SREFEN => option_map (with_pend (t + ms_tRFC p) SelfRef) (refresh (ms_tRFC p))
  | PDEA => guard (existsb is_open bs && forallb (fun b => is_open b || closed_before entry b) bs)
                  (with_pend entry ActPd d)
  | PDEP => guard (forallb (closed_by entry) bs) (with_pend entry PrePd d)
  | _ => None
  end.

(* One command; None when the command breaks the protocol. *)
Definition command (p : memspec) (c : Command) (d : device) : option device :=
  let t := cmd_ts c in
  let exit := N.max t (ready p (dv_banks d)) in
  if in_standard p (cmd_type c) && well_addressed p c then
    match cmd_type c, dv_pend d, dv_mode d with
    | (NOP | END_OF_SIMULATION), _, _ => Some d
    | PDXA, None, ActPd => Some (with_pend exit Up d)
    | PDXP, None, PrePd => Some (with_pend exit Up d)
    | SREFEX, None, SelfRef => Some (with_mode Up d)
    | DSMEN, None, SelfRef => Some (with_mode DeepSleep d)
    | DSMEX, None, DeepSleep => Some (with_mode SelfRef d)
    | _, None, Up => up_command p c d
    | _, _, _ => None
    end
  else None.

Fixpoint run_device (p : memspec) (cs : list Command) (d : device) : option device :=
  match cs with
  | [] => Some d
  | c :: cs' =>
      match command p c (settle (cmd_ts c) d) with
      | Some d' => run_device p cs' d'
      | None => None
      end
  end.

(* A history is legal for a rank when no command to it breaks the protocol. *)
Definition legal (p : memspec) (r : nat) (cs : list Command) : Prop :=
  run_device p (filter (to_rank r) cs) (device_new p) <> None.

(* State during cycle n: all commands given up to n, and everything due. *)
Definition device_at (p : memspec) (r : nat) (cs : list Command) (n : N) : option device :=
  option_map (settle n)
    (run_device p (filter (fun c => to_rank r c && (cmd_ts c <=? n)) cs) (device_new p)).

(* ---- counting cycles ---- *)

Fixpoint count_below (P : N -> bool) (n : nat) : N :=
  match n with
  | O => 0
  | S m => count_below P m + (if P (N.of_nat m) then 1 else 0)
  end.

(* Number of cycles before t during which P holds of the rank. *)
Definition cycles_where (p : memspec) (r : nat) (cs : list Command) (t : N) (P : device -> bool) : N :=
  count_below (fun n => match device_at p r cs n with Some d => P d | None => false end) (N.to_nat t).

Definition mode_is (m : smode) (d : device) : bool := smode_beq (dv_mode d) m.
(* In active power-down the clocks of the banks stand still. *)
Definition bank_acts (b : nat) (d : device) : bool :=
  match nth_error (dv_banks d) b with
  | Some sb => busy sb && negb (mode_is ActPd d)
  | None => false
  end.
Definition bank_idles (b : nat) (d : device) : bool :=
  match nth_error (dv_banks d) b with
  | Some sb => negb (busy sb) && mode_is Up d
  | None => false
  end.
Definition rank_acts (d : device) : bool := existsb busy (dv_banks d) && negb (mode_is ActPd d).
Definition rank_idles (d : device) : bool := negb (existsb busy (dv_banks d)) && mode_is Up d.

(* A configuration a memory specification can describe. *)
Definition well_formed (p : memspec) : Prop :=
  (0 < ms_banks p)%nat /\
  (ms_std p = DDR5 -> (0 < ms_banksPerGroup p)%nat /\
                      (ms_groups p * ms_banksPerGroup p = ms_banks p)%nat).

(* Histories with ordered timestamps, far from the end of 64-bit time. *)
Definition timely (p : memspec) (cs : list Command) (t : N) : Prop :=
  nondecreasing 0 (map cmd_ts cs) /\ no_overflow p (map cmd_ts cs) /\
  final_time 0 (map cmd_ts cs) <= t /\ t < two64 /\ N.of_nat (length cs) < two64.

(* What the statistics of rank r and of its bank b ought to be at time t. *)
Definition spec_rank (p : memspec) (r : nat) (cs : list Command) (t : N) : cycles :=
  let count := cycles_where p r cs t in
  mkCycles (count rank_acts) (count rank_idles) (count (mode_is ActPd)) (count (mode_is PrePd))
           (count (mode_is SelfRef)) (count (mode_is DeepSleep)).
Definition spec_bank (p : memspec) (r b : nat) (cs : list Command) (t : N) : cycles :=
  let count := cycles_where p r cs t in
  mkCycles (count (bank_acts b)) (count (bank_idles b)) (count (mode_is ActPd)) (count (mode_is PrePd))
           (count (mode_is SelfRef)) (count (mode_is DeepSleep)).

(* A history that breaks the protocol on no rank. *)
Definition legal_history (p : memspec) (cs : list Command) : Prop :=
  Forall (fun c => (N.to_nat (cmd_rank c) < ms_ranks p)%nat) cs /\
  forall r, (r < ms_ranks p)%nat -> legal p r cs.

(* What the library shows at time t after the commands cs: construct a core,
   call doCommand for each, call getWindowStats(t), pick rank r or its bank b. *)
Definition rank_view (p : memspec) (cs : list Command) (t : N) (r : nat) : option cycles :=
  match run_core p cs (core_new p) with
  | Ok s => shown_rank (snd (window_stats p t s)) r
  | _ => None
  end.
Definition bank_view (p : memspec) (cs : list Command) (t : N) (r b : nat) : option cycles :=
  match run_core p cs (core_new p) with
  | Ok s => option_map bs_cycles (shown_bank p (snd (window_stats p t s)) r b)
  | _ => None
  end.
Definition bank_counter (p : memspec) (cs : list Command) (t : N) (r b : nat) (k : ckind) : option N :=
  match run_core p cs (core_new p) with
  | Ok s => option_map (fun st => cs_get k (bs_counter st)) (shown_bank p (snd (window_stats p t s)) r b)
  | _ => None
  end.

(* During cycle n some bank is active. *)
Definition some_bank_acts (p : memspec) (d : device) : bool :=
  existsb (fun b => bank_acts b d) (seq 0 (ms_banks p)).

(* In cycle n the last deep-sleep command to rank r was an entry. *)
Definition in_deep_sleep (r : nat) (cs : list Command) (n : N) : bool :=
  fold_left (fun s c => if to_rank r c && (cmd_ts c <=? n)
                        then match cmd_type c with DSMEN => true | DSMEX => false | _ => s end
                        else s) cs false.

(* Commands that change the mode of the whole rank. *)
Definition mode_command (k : CmdType) : bool :=
  match k with
  | PDEA | PDEP | PDXA | PDXP | SREFEN | SREFEX | DSMEN | DSMEX => true
  | _ => false
  end.

(* The command acts on bank b of rank r, alone or together with others. *)
Definition touches (p : memspec) (r b : nat) (c : Command) : bool :=
  to_rank r c && (footprint p c b || mode_command (cmd_type c)).
