(* What an interface shows on its wires, told from the commands alone: the
   yardstick for C43 to C46. *)
From Coq Require Import NArith List Bool Arith.
From Verif Require Import Base Command CoreModel Bits BusModel WaveSpec ClockProofs PatternModel PatternTables PatternSpec InterfaceModel.
Import ListNotations.
Local Open Scope N_scope.

(* ---- the command bus ---- *)

(* Lines of the command bus, beats per clock cycle, level at rest. *)
Definition ca_pins (s : standard) : nat := match s with DDR4 => 27 | DDR5 => 14 | LPDDR4 => 6 | LPDDR5 => 7 | LPDDR6 => 4 end%nat.
Definition ca_beats (s : standard) : N := match s with DDR4 | DDR5 | LPDDR4 => 1 | LPDDR5 | LPDDR6 => 2 end.
Definition ca_rests_high (s : standard) : bool := match s with DDR4 | DDR5 => true | _ => false end.

(* Commands that do not appear on the command bus. *)
Definition silent (s : standard) (t : CmdType) : bool :=
  match t with
  | END_OF_SIMULATION => true
  | PDEA | PDEP | PDXA | PDXP => match s with LPDDR4 => true | _ => false end
  | _ => false
  end.
(* Reads and writes. *)
Definition transfers (t : CmdType) : option bool :=
  match t with RD | RDA => Some true | WR | WRA => Some false | _ => None end.

(* Levels that do not come from the address: don't-care lines, and for a burst of
   n beats the low column bits and the burst length bit. *)
Definition fixed_level (s : standard) (burst : option (N * bool)) (d : desc) : option bool :=
  match s, d, burst with
  | DDR4, DV, _ | DDR4, DX, _ | DDR5, DV, _ | DDR5, DX, _ => Some true
  | DDR4, DC k, Some (n, read) =>
      match k with
      | 0%nat | 1%nat => Some (negb read)
      | 2%nat => Some (negb read && negb (n =? 4))
      | _ => None
      end
  | DDR5, DC 0, _ | DDR5, DC 1, _ => Some true
  | DDR5, DC k, Some (n, read) =>
      match k with
      | 2%nat => Some (negb read)
      | 3%nat => Some (negb read && negb (n =? 8))
      | 10%nat => if n =? 32 then Some false else None
      | _ => None
      end
  | LPDDR4, DC 0, _ | LPDDR4, DC 1, _ => Some false
  | LPDDR4, DC k, Some (n, _) =>
      match k with
      | 2%nat | 3%nat => Some false
      | 4%nat => if n =? 32 then Some false else None
      | _ => None
      end
  | LPDDR4, DBL, Some (n, _) => Some (n =? 32)
  | LPDDR5, DC 0, Some (n, _) => if n =? 32 then Some false else None
  | _, _, _ => None
  end.
Definition shown (s : standard) (burst : option (N * bool)) (c : coord) (d : desc) : bool :=
  match fixed_level s burst d with Some b => b | None => unset c d end.

(* The words of a pattern: beat b has descriptor b * width on its highest line. *)
Definition words_of {A} (width : nat) (p : list A) (show : A -> bool) : list N :=
  map (fun b => word_of width (fun j => match nth_error p (b * width + (width - 1 - j)) with Some d => show d | None => false end))
      (seq 0 (Nat.div (length p) width)).
(* The patterns of a standard. *)
Definition table_of (p : ifspec) (t : CmdType) : list desc :=
  match fi_std p with
  | DDR4 => ddr4_patterns t | DDR5 => ddr5_patterns t | LPDDR4 => lpddr4_patterns t
  | LPDDR5 => lpddr5_patterns (fi_arch p) t | LPDDR6 => []
  end.

(* ---- bursts ---- *)

(* Lines of the data bus. *)
Definition dq_lines (p : ifspec) : N := fi_bits p * fi_devices p.
(* Bits a command puts on the data bus, in LPDDR6 with 32 more bits for every 256:
   of the command itself, or, when it comes without data, of a full burst while
   toggling rates are used. *)
Definition burst_bits (p : ifspec) (bus : bool) (c : Command) : N :=
  if cmd_sz_bits c =? 0 then (if bus then 0 else fi_burst p * dq_lines p)
  else match fi_std p with LPDDR6 => 9 * cmd_sz_bits c / 8 | _ => cmd_sz_bits c end.
Definition burst_beats (p : ifspec) (bus : bool) (c : Command) : N := burst_bits p bus c / dq_lines p.

(* What a command addresses; in LPDDR6 a second bank, eight banks on. *)
Definition named_place (c : Command) : coord :=
  mkCoord (cmd_bank c) (cmd_bankGroup c) (cmd_rank c) (cmd_row c) (cmd_column c) ((cmd_bank c + 8) mod 16) 0.
(* The words of a command on the command bus. *)
Definition command_words (p : ifspec) (bus : bool) (c : Command) : list N :=
  match fi_std p with
  | LPDDR6 => words_of 4 (lpddr6_patterns (cmd_type c)) (demanded6 (mkExtra (burst_beats p bus c) 4 false) (named_place c))
  | s => words_of (ca_pins s) (table_of p (cmd_type c))
           (shown s (match transfers (cmd_type c) with Some read => Some (burst_beats p bus c, read) | None => None end) (named_place c))
  end.
(* What the commands drive onto the command bus. *)
Definition ca_drives (p : ifspec) (bus : bool) (cs : list Command) : drives :=
  flat_map (fun c => if silent (fi_std p) (cmd_type c) then []
                     else [(cmd_ts c * ca_beats (fi_std p), command_words p bus c)]) cs.

(* ---- strobes ---- *)

(* When a strobe or clock that follows the bursts runs: from the command for the
   cycles of the burst. *)
Definition burst_cycles (p : ifspec) (bus : bool) (c : Command) : N := burst_beats p bus c / fi_rate p.
Definition strobe (p : ifspec) (bus : bool) (wanted : bool -> bool) (cs : list Command) : list clock_op :=
  flat_map (fun c => match transfers (cmd_type c) with
                     | Some read => if wanted read then [Start (cmd_ts c); Stop (cmd_ts c + burst_cycles p bus c)] else []
                     | None => []
                     end) cs.

(* ---- everything a user can call ---- *)

Inductive call := Do (c : Command) | SetDbi (e : bool) | SetMeta (a b : N) | SetParity (e : bool) | Enable (t : N) | Disable (t : N).
Definition call_do (x : call) (i : iface) : result iface :=
  match x with
  | Do c => if_command c i
  | SetDbi e => Value (fst (if_enable_dbi e i))
  | SetMeta a b => Value (if_set_meta a b i)
  | SetParity e => if_set_parity e i
  | Enable t => if_enable t i
  | Disable t => if_disable t i
  end.
Definition calls_run (xs : list call) (i : iface) : result iface := loop call_do xs i.
Definition commands (xs : list call) : list Command := flat_map (fun x => match x with Do c => [c] | _ => [] end) xs.

(* Starts and stops of the clocks of LPDDR6 by Enable and Disable; a request that
   changes nothing is ignored. *)
Fixpoint switching (on : bool) (xs : list call) : list clock_op :=
  match xs with
  | [] => []
  | Enable t :: r => (if on then [] else [Start t]) ++ switching true r
  | Disable t :: r => (if on then [Stop t] else []) ++ switching false r
  | _ :: r => switching on r
  end.
(* No stretch starts before beat [from] or before its predecessor has ended. *)
Fixpoint apart (from : N) (ds : drives) : Prop :=
  match ds with
  | [] => True
  | d :: r => from <= fst d /\ apart (fst d + N.of_nat (length (snd d))) r
  end.
(* Cycles in which the bursts wanted are transferred, and the bursts in order of
   time, each over before the next one starts, the last one over at [until]. *)
Definition total_cycles (p : ifspec) (bus : bool) (wanted : bool -> bool) (cs : list Command) : N :=
  fold_right N.add 0 (map (burst_cycles p bus) (filter (fun c => match transfers (cmd_type c) with Some read => wanted read | None => false end) cs)).
Fixpoint bursts_in_order (p : ifspec) (bus : bool) (wanted : bool -> bool) (from until : N) (cs : list Command) : Prop :=
  match cs with
  | [] => from <= until
  | c :: r => if match transfers (cmd_type c) with Some read => wanted read | None => false end
              then from <= cmd_ts c /\ bursts_in_order p bus wanted (cmd_ts c + burst_cycles p bus c) until r
              else bursts_in_order p bus wanted from until r
  end.
(* Strobe lines of a data bus. *)
Definition strobe_lines (p : ifspec) : N :=
  match fi_std p with LPDDR5 | LPDDR6 => 2 | _ => if fi_bits p =? 16 then 4 else 2 end.
(* Its data rate, and the standards with a WCK pair. *)
Definition dqs_rate (p : ifspec) : N := match fi_std p with DDR5 => fi_dqs p | _ => fi_rate p end.
Definition two_clocks (s : standard) : bool := match s with LPDDR5 | LPDDR6 => true | _ => false end.
(* Strobes of the reads; a clock of all bursts. *)
Definition wants_read (r : bool) : bool := r.
Definition wants_any (r : bool) : bool := true.

(* ---- what is asked of a configuration and its commands ---- *)

(* A data bus exists and a full burst has fewer than 2^64 bits. *)
Definition sizes_ok (p : ifspec) : Prop := 0 < dq_lines p /\ dq_lines p < two64 /\ fi_burst p * dq_lines p < two64.
(* Without toggling rates the data bus counts real data. *)
Definition no_toggle (sim : option toggle_def) : bool := match sim with Some _ => false | None => true end.
(* The times of a command do not overflow. *)
Definition command_ok (p : ifspec) (bus : bool) (c : Command) : Prop :=
  cmd_ts c * ca_beats (fi_std p) + 64 < two64 /\ cmd_ts c + burst_cycles p bus c < two64.
