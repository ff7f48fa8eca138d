(* The interface of a DRAM.  Models standards/*/*Interface.cpp and .h under
   src/DRAMPower/DRAMPower, cited below as D4, D5, L4, L5, L6 for
   {DDR4,DDR5,LPDDR4,LPDDR5,LPDDR6}Interface.cpp.  The five classes are one
   record here; a member a standard does not have is never used for it.
   The parts - buses, clocks, inverter, pins, encoder, formatter - are the models
   of their own files. *)
From Coq Require Import NArith QArith List Bool Arith.
From Verif Require Import Base Command CoreModel Bits BusModel ToggleModel PinModel DbiModel DbiPinModel PatternModel PatternTables FormatModel StatsModel.
Import ListNotations.
Local Open Scope N_scope.

(* What the constructors read of a memspec: D4 15-41, DDR4Interface.h 30-43; D5
   15-32; L4 17-39; L5 16-38, LPDDR5Interface.h 26-42; L6 21-46.  fi_dqs is
   dataRateSpec.dqsBusRate (DDR5), fi_wck is WCKtoCK and fi_wck_on
   wckAlwaysOnMode (LPDDR5, LPDDR6), fi_arch bank_arch (LPDDR5), fi_groups
   numberOfBankGroups (LPDDR6).  fi_grow is what the implementation of
   std::vector<bool> does (see DbiModel), fi_wild what an out-of-range shift
   gives (see FormatModel). *)
Record ifspec := mkIfspec {
  fi_std : standard; fi_rate : N; fi_burst : N; fi_bits : N; fi_devices : N; fi_ranks : nat;
  fi_dqs : N; fi_wck : N; fi_wck_on : bool; fi_arch : bank_arch; fi_groups : N;
  fi_grow : nat -> nat; fi_wild : option (nat -> bool)
}.
(* DRAMUtils ToggleRateDefinition, as read in util/databus.h 59-74. *)
Record toggle_def := mkToggle {
  td_read_rate : Q; td_read_duty : Q; td_read_idle : toggle_idle; td_write_rate : Q; td_write_duty : Q; td_write_idle : toggle_idle
}.
(* RankInterface: dram/Rank.h 58-66. *)
Record rank_if := mkRankIf {
  ri_rs : N; ri_ws : N; ri_rm : N; ri_wm : N; ri_rmt : N; ri_wmt : N; ri_rend : N; ri_wend : N
}.
(* Default initialisers: dram/Rank.h 59-66. *)
Definition rank_if0 : rank_if := mkRankIf 0 0 0 0 0 0 0 0.

(* The PatternHandler of a standard: LPDDR6 has its own encoder (L6 header 109). *)
Inductive patterns := Pat (h : handler) | Pat6 (h : handler6).

(* Members: DDR4Interface.h 94-107; DDR5Interface.h 73-80; LPDDR4Interface.h 84-94;
   LPDDR5Interface.h 88-98; LPDDR6Interface.h 146-156.  if_wdqs is m_writeDQS
   (DDR4, DDR5, LPDDR4), if_wck is m_wck (LPDDR5, LPDDR6); if_dbi is m_dbi with
   m_dbiread and m_dbiwrite (no pins for LPDDR6); if_meta and if_buf are the
   members of m_formatter. *)
Record iface := mkIface {
  if_spec : ifspec; if_cmd : bus; if_data : data_bus; if_rdqs : clock; if_wdqs : clock; if_wck : clock; if_clock : clock;
  if_dbi : option dbi_pins_if; if_ranks : list rank_if; if_pat : patterns; if_last : N;
  if_meta : N * N; if_buf : list N; if_enabled : bool
}.

(* ---- constructors ---- *)

(* Width, data rate and idle level of the command bus: D4 17-18, DDR4Interface.h
   47; D5 17-18, DDR5Interface.h 40; L4 19; L5 18-19, LPDDR5Interface.h 47; L6
   23-24, LPDDR6Interface.h 83. *)
Definition ca_width (s : standard) : nat := match s with DDR4 => 27 | DDR5 => 14 | LPDDR4 => 6 | LPDDR5 => 7 | LPDDR6 => 4 end%nat.
(* With ca_width: Width, data rate and idle level of the command bus: D4 17-18,
   DDR4Interface.h 47; D5 17-18, DDR5Interface.h 40; L4 19; L5 18-19,
   LPDDR5Interface.h 47; L6 23-24, LPDDR6Interface.h 83. *)
Definition ca_rate (s : standard) : N := match s with LPDDR5 | LPDDR6 => 2 | _ => 1 end.
(* With ca_width: Width, data rate and idle level of the command bus: D4 17-18,
   DDR4Interface.h 47; D5 17-18, DDR5Interface.h 40; L4 19; L5 18-19,
   LPDDR5Interface.h 47; L6 23-24, LPDDR6Interface.h 83. *)
Definition ca_idle (s : standard) : idle_spec := match s with DDR4 | DDR5 => IdleH | _ => IdleL end.
(* busConfig: D4, D5 6-13; L4 8-15; L5 6-13; L6 12-19. *)
Definition bus_config (s : standard) : toggle_def :=
  let i := match s with DDR4 | DDR5 => TogH | _ => TogL end in mkToggle 0 0 i 0 0 i.
(* DataBusConfig: D4, D5 20-28; L4 21-29; L5 21-30; L6 26-35. *)
Definition data_width (p : ifspec) : N := u64_mul (fi_bits p) (fi_devices p).
(* With data_width: DataBusConfig: D4, D5 20-28; L4 21-29; L5 21-30; L6 26-35. *)
Definition data_config_of (p : ifspec) (sim : option toggle_def) : data_config :=
  let d := match sim with Some d => d | None => bus_config (fi_std p) end in
  mkDataConfig (N.to_nat (data_width p)) (fi_rate p) (td_read_rate d) (td_read_duty d) (td_read_idle d)
               (td_write_rate d) (td_write_duty d) (td_write_idle d).
(* With data_width: DataBusConfig: D4, D5 20-28; L4 21-29; L5 21-30; L6 26-35. *)
Definition data_mode (sim : option toggle_def) : bus_mode := match sim with Some _ => ModeToggling | None => ModeBus end.
(* The template arguments and constructor arguments of m_dbi: D4 34-37,
   DDR4Interface.h 100; L4 33-36; L5 33-36, LPDDR5Interface.h 94; L6 40,
   LPDDR6Interface.h 152. *)
Definition dbi_config_of (p : ifspec) : dbi_config :=
  match fi_std p with
  | DDR4 => mkDbiConfig 8 1 PinH Static (Some (N.to_nat (data_width p))) (N.to_nat (fi_burst p)) true (fi_grow p)
  | LPDDR6 => mkDbiConfig 8 2 PinL Static None (N.to_nat (fi_burst p)) false (fi_grow p)
  | _ => mkDbiConfig 8 1 PinL Static (Some (N.to_nat (data_width p))) (N.to_nat (fi_burst p)) true (fi_grow p)
  end.
(* The capacity of pin_dbi_t: DDR4Interface.h 53; LPDDR4Interface.h 49;
   LPDDR5Interface.h 53. *)
Definition pin_capacity (s : standard) : nat := match s with DDR4 => 8 | _ => 32 end%nat.
(* m_dbi, m_dbiread, m_dbiwrite: D4 34-39; L4 33-38; L5 33-38; L6 40; DDR5 has
   none. *)
Definition new_dbi (p : ifspec) : result (option dbi_pins_if) :=
  match fi_std p with
  | DDR5 => Value None
  | LPDDR6 => d <- dbi_new (dbi_config_of p) false ;; Value (Some (mkDbiIf d [] [] (fi_rate p)))
  | s => i <- dbi_if_new (dbi_config_of p) (pin_capacity s) (fi_rate p) false ;; Value (Some i)
  end.
(* The encoder: D4 43-46; D5 33-43; L4 39-42; L5 39; L6 41, 45. *)
Definition new_patterns (p : ifspec) : patterns :=
  match fi_std p with
  | DDR4 => Pat ddr4_handler | DDR5 => Pat ddr5_handler | LPDDR4 => Pat lpddr4_handler
  | LPDDR5 => Pat (lpddr5_handler (fi_arch p)) | LPDDR6 => Pat6 (lpddr6_handler (fi_groups p))
  end.
(* The constructors: D4 15-49; D5 15-46; L4 17-46; L5 16-42; L6 21-46 with
   enabled = true, which is what LPDDR6.cpp 18 passes.  WCKtoCK = 0 divides by
   zero. *)
Definition iface_new (p : ifspec) (sim : option toggle_def) : result iface :=
  let s := fi_std p in
  cmd <- bus_new (ca_width s) (ca_width s) (ca_rate s) (ca_idle s) true ;;
  max <- preset_capacity (N.to_nat (data_width p)) ;;
  data <- data_new max (data_config_of p sim) (data_mode sim) ;;
  wck <- match s with
         | LPDDR5 | LPDDR6 => if fi_wck p =? 0 then Fails UB else Value (clock_new (fi_rate p / fi_wck p) (negb (fi_wck_on p)))
         | _ => Value (clock_new 2 true)
         end ;;
  d <- new_dbi p ;;
  let dqs := match s with DDR5 => fi_dqs p | _ => fi_rate p end in
  Value (mkIface p cmd data (clock_new dqs true) (clock_new dqs true) wck (clock_new 2 false) d
                 (repeat rank_if0 (match s with DDR4 => fi_ranks p | _ => 0%nat end)) (new_patterns p) 0 (0, 0) [] true).

(* ---- member updates ---- *)

(* Assignments to single members; not functions of the source. *)
(* The members: DDR4Interface.h 94-107. *)
Definition if_with_cmd (i : iface) (b : bus) (h : patterns) : iface :=
  mkIface (if_spec i) b (if_data i) (if_rdqs i) (if_wdqs i) (if_wck i) (if_clock i) (if_dbi i) (if_ranks i) h (if_last i) (if_meta i) (if_buf i) (if_enabled i).
(* As if_with_cmd: DDR4Interface.h 94-107. *)
Definition if_with_pat (i : iface) (h : patterns) : iface := if_with_cmd i (if_cmd i) h.
(* As if_with_cmd: DDR4Interface.h 94-107. *)
Definition if_with_data (i : iface) (d : data_bus) (x : option dbi_pins_if) (buf : list N) : iface :=
  mkIface (if_spec i) (if_cmd i) d (if_rdqs i) (if_wdqs i) (if_wck i) (if_clock i) x (if_ranks i) (if_pat i) (if_last i) (if_meta i) buf (if_enabled i).
(* As if_with_cmd: DDR4Interface.h 94-107. *)
Definition if_with_dbi (i : iface) (x : option dbi_pins_if) : iface := if_with_data i (if_data i) x (if_buf i).
(* As if_with_cmd: DDR4Interface.h 94-107. *)
Definition if_with_clocks (i : iface) (r w k : clock) : iface :=
  mkIface (if_spec i) (if_cmd i) (if_data i) r w k (if_clock i) (if_dbi i) (if_ranks i) (if_pat i) (if_last i) (if_meta i) (if_buf i) (if_enabled i).
(* As if_with_cmd: DDR4Interface.h 94-107. *)
Definition if_with_ranks (i : iface) (l : list rank_if) : iface :=
  mkIface (if_spec i) (if_cmd i) (if_data i) (if_rdqs i) (if_wdqs i) (if_wck i) (if_clock i) (if_dbi i) l (if_pat i) (if_last i) (if_meta i) (if_buf i) (if_enabled i).
(* As if_with_cmd: DDR4Interface.h 94-107. *)
Definition if_with_last (i : iface) (t : N) : iface :=
  mkIface (if_spec i) (if_cmd i) (if_data i) (if_rdqs i) (if_wdqs i) (if_wck i) (if_clock i) (if_dbi i) (if_ranks i) (if_pat i) t (if_meta i) (if_buf i) (if_enabled i).

(* ---- commands ---- *)

(* The coordinates of a command: command/Command.h 11-23; for LPDDR6 the second
   bank of LPDDR6Command.cpp 8-15.  subChannel stays 0. *)
Definition coord_of (c : Command) : coord :=
  mkCoord (cmd_bank c) (cmd_bankGroup c) (cmd_rank c) (cmd_row c) (cmd_column c) (lpddr6_dbank (cmd_bank c)) 0.
(* Command::data: an empty list stands for the null pointer. *)
(* command/Command.h 35-36. *)
Definition data_of (c : Command) : option (list N) := match cmd_data c with [] => None | l => Some l end.

(* handleCommandBus: D4 288-292; D5 230-234; L4 201-205; L5 323-327; L6 262-266. *)
Definition handle_command_bus (c : Command) (i : iface) : result iface :=
  match if_pat i with
  | Pat h =>
      x <- command_pattern h (cmd_type c) (coord_of c) ;;
      b <- bus_load_word (if_cmd i) (cmd_ts c) (fst x) (Nat.div (length (ph_map h (cmd_type c))) (b_width (if_cmd i))) ;;
      Value (if_with_cmd i b (Pat (snd x)))
  | Pat6 h =>
      x <- command_pattern6 h (cmd_type c) (coord_of c) ;;
      b <- bus_load_word (if_cmd i) (cmd_ts c) (fst x) (Nat.div (length (p6_map h (cmd_type c))) (b_width (if_cmd i))) ;;
      Value (if_with_cmd i b (Pat6 (snd x)))
  end.

(* start(timestamp) then stop(timestamp + length / dataRate): D4 294-297; D5
   236-239; L4 207-210; L5 348-349; L6 335-336. *)
Definition pulse (k : clock) (t length rate : N) : result clock :=
  if rate =? 0 then Fails UB else
  k <- clock_start k t ;; clock_stop k (u64_add t (length / rate)).
(* handleDQs of DDR4, DDR5, LPDDR4 and the DQS part of handleData: L5 345-363; L6
   332-348. *)
Definition handle_dqs (c : Command) (read : bool) (length : N) (i : iface) : result iface :=
  let rate := fi_rate (if_spec i) in
  match fi_std (if_spec i) with
  | LPDDR5 | LPDDR6 =>
      r <- (if read then pulse (if_rdqs i) (cmd_ts c) length rate else Value (if_rdqs i)) ;;
      k <- (if fi_wck_on (if_spec i) then Value (if_wck i) else pulse (if_wck i) (cmd_ts c) length rate) ;;
      Value (if_with_clocks i r (if_wdqs i) k)
  | _ =>
      if read then k <- pulse (if_rdqs i) (cmd_ts c) length rate ;; Value (if_with_clocks i k (if_wdqs i) (if_wck i))
      else k <- pulse (if_wdqs i) (cmd_ts c) length rate ;; Value (if_with_clocks i (if_rdqs i) k (if_wck i))
  end.

(* handleOverrides: D4 236-286; D5 161-228; L4 174-199; L5 306-321; the assignment
   of currentBurstLength: L6 349. *)
Definition handle_overrides (i : iface) (length : N) (read : bool) : iface :=
  match if_pat i with
  | Pat h =>
      if_with_pat i (Pat (with_overrides h
        (match fi_std (if_spec i) with
         | DDR4 => ddr4_overrides | DDR5 => ddr5_overrides | LPDDR4 => lpddr4_overrides | _ => lpddr5_overrides
         end (ph_over h) length read)))
  | Pat6 h => if_with_pat i (Pat6 (with_burst6 h length))
  end.

(* handlePrePostamble: D4 198-234; the assert is line 215. *)
Definition handle_prepostamble (t length : N) (r : rank_if) (read : bool) : result rank_if :=
  let last := if read then ri_rend r else ri_wend r in
  check (last <=? t)
    (let diff := u64_sub t last in
     let e := u64_add t length in
     let seamless := diff =? 0 in
     Value (if read
            then mkRankIf (if seamless then u64_inc (ri_rs r) else ri_rs r) (ri_ws r) (ri_rm r) (ri_wm r) (ri_rmt r) (ri_wmt r) e (ri_wend r)
            else mkRankIf (ri_rs r) (if seamless then u64_inc (ri_ws r) else ri_ws r) (ri_rm r) (ri_wm r) (ri_rmt r) (ri_wmt r) (ri_rend r) e)).

(* loadfunc: D4 300; D5 242; L4 213; L5 331; L6 311. *)
Definition load_data (d : data_bus) (read : bool) (t : N) (n_bits : nat) (data : option (list N)) : result data_bus :=
  if read then data_load_read d t n_bits data else data_load_write d t n_bits data.
(* getWidth: util/databus.h 145-147. *)
Definition bus_lines (i : iface) : N := data_width (if_spec i).

(* The condition m_dataBus.isBus() && m_dbi.isEnabled() and handleDBIInterface: D4
   188-196, 314-317; L4 164-172, 227-230; L5 296-304, 342-345; L6 252-260, 321-323. *)
Definition invert_data (c : Command) (read : bool) (i : iface) : result (option dbi_pins_if * option (list N)) :=
  match if_dbi i with
  | Some x =>
      if is_bus (d_mode (if_data i)) && db_enable (di_dbi x)
      then r <- dbi_if_data x (cmd_ts c) (N.to_nat (cmd_sz_bits c)) (data_of c) read ;; Value (Some (fst r), snd r)
      else Value (if_dbi i, None)
  | None => Value (None, None)
  end.
(* The part of handleData that loads the data bus: D4 299-319; D5 241-256; L4
   212-232; L5 330-343; L6 310-331.  The result is the new interface and
   length. *)
Definition handle_burst (c : Command) (read : bool) (i : iface) : result (iface * N) :=
  let width := bus_lines i in
  if cmd_sz_bits c =? 0 then
    match d_mode (if_data i) with
    | ModeToggling =>
        let length := fi_burst (if_spec i) in
        d <- load_data (if_data i) read (cmd_ts c) (N.to_nat (u64_mul length width)) None ;;
        Value (if_with_data i d (if_dbi i) (if_buf i), length)
    | ModeBus => Value (i, 0)
    end
  else if width =? 0 then Fails UB
  else
    x <- invert_data c read i ;;
    let data := match snd x with Some l => Some l | None => data_of c end in
    match fi_std (if_spec i) with
    | LPDDR6 =>
        let inv := match fst x with
                   | Some y => if db_enable (di_dbi y) then Some (lb_inv (db_side (di_dbi y) read)) else None
                   | None => None
                   end in
        f <- format_data (fi_wild (if_spec i)) (if_meta i) (if_buf i) data (N.to_nat (cmd_sz_bits c)) inv ;;
        d <- load_data (if_data i) read (cmd_ts c) (snd f) (fst f) ;;
        Value (if_with_data i d (fst x) (match fst f with Some b => b | None => if_buf i end), N.of_nat (snd f) / width)
    | _ =>
        d <- load_data (if_data i) read (cmd_ts c) (N.to_nat (cmd_sz_bits c)) data ;;
        Value (if_with_data i d (fst x) (if_buf i), cmd_sz_bits c / width)
    end.
(* handleData: D4 299-327; D5 241-260; L4 212-236; L5 330-367; L6 310-351.  The
   overrides touch nothing but the encoder, so their place before (D4) or after
   the strobes makes no difference. *)
Definition handle_data (c : Command) (read : bool) (i : iface) : result iface :=
  x <- handle_burst c read i ;;
  let length := snd x in
  i <- handle_dqs c read length (fst x) ;;
  i <- handle_command_bus c (handle_overrides i length read) ;;
  match fi_std (if_spec i) with
  | DDR4 =>
      check (Nat.ltb (N.to_nat (cmd_rank c)) (List.length (if_ranks i)))
        (r <- fetch (if_ranks i) (N.to_nat (cmd_rank c)) ;;
         r <- handle_prepostamble (cmd_ts c) (length / fi_rate (if_spec i)) r read ;;
         Value (if_with_ranks i (upd (N.to_nat (cmd_rank c)) (fun _ => r) (if_ranks i))))
  | _ => Value i
  end.
(* endOfSimulation: D4 329-331; L4 238-240; L5 369-371; L6 353-355; D5 152-153. *)
Definition end_of_simulation (t : N) (i : iface) : result iface :=
  match if_dbi i with
  | Some x => x <- dbi_if_end x t ;; Value (if_with_dbi i (Some x))
  | None => Value i
  end.

(* The branches of the switches of doCommand. *)
(* D4 148-175; D5 127-156; L4 122-151; L5 247-283; L6 219-248. *)
Inductive route := ToBus | ToData (read : bool) | ToEnd | ToNothing | ToThrow | ToAssert.
(* doCommand: D4 148-175; D5 127-156; L4 122-151; L5 247-283; L6 219-248. *)
Definition routing (p : ifspec) (t : CmdType) : route :=
  match t with
  | RD | RDA => ToData true
  | WR | WRA => ToData false
  | END_OF_SIMULATION => match fi_std p with DDR5 => ToNothing | _ => ToEnd end
  | ACT | PRE | PREA | REFA | SREFEN | SREFEX => ToBus
  | PDEA | PDEP | PDXA | PDXP => match fi_std p with LPDDR4 => ToNothing | _ => ToBus end
  | NOP => match fi_std p with DDR5 | LPDDR6 => ToBus | _ => ToAssert end
  | PRESB | REFSB => match fi_std p with DDR5 => ToBus | _ => ToAssert end
  | REFB => match fi_std p with LPDDR4 | LPDDR5 => ToBus | _ => ToAssert end
  | REFP2B => match fi_std p with LPDDR5 => match fi_arch p with M8B => ToThrow | _ => ToBus end | _ => ToAssert end
  | DSMEN | DSMEX => match fi_std p with LPDDR5 => ToBus | _ => ToAssert end
  | REFDB => match fi_std p with LPDDR6 => ToBus | _ => ToAssert end
  | COUNT => ToAssert
  end.
(* doCommand: D4 147-177; D5 126-158; L4 121-153; L5 246-285; L6 218-250. *)
Definition if_command (c : Command) (i : iface) : result iface :=
  i <- match routing (if_spec i) (cmd_type c) with
       | ToBus => handle_command_bus c i
       | ToData read => handle_data c read i
       | ToEnd => end_of_simulation (cmd_ts c) i
       | ToNothing => Value i
       | ToThrow => Fails Exception
       | ToAssert => Fails Assertion
       end ;;
  Value (if_with_last i (cmd_ts c)).
(* A sequence of commands. *)
(* As in src/cli/lib/DRAMPower/cli/run.cpp 280-290. *)
Definition if_run (cs : list Command) (i : iface) : result iface := loop if_command cs i.

(* ---- extensions ---- *)

(* enableDBI: DDR4Interface.h 71-73; LPDDR4Interface.h 67-69; LPDDR5Interface.h
   71-73; LPDDR6Interface.h 128-130.  The x4 check of DDR4.cpp 30-33 comes
   first.  The result of the callback is the second component. *)
Definition if_enable_dbi (e : bool) (i : iface) : iface * bool :=
  match if_dbi i with
  | Some x =>
      if match fi_std (if_spec i) with DDR4 => fi_bits (if_spec i) =? 4 | _ => false end then (i, false)
      else (if_with_dbi i (Some (di_with x (mkDbi (db_config (di_dbi x)) e (db_read (di_dbi x)) (db_write (di_dbi x))
                                                  (db_last_read (di_dbi x)) (db_data (di_dbi x))))), true)
  | None => (i, false)
  end.
(* setMetaData: L6 292-295, two uint16_t. *)
Definition if_set_meta (a b : N) (i : iface) : iface :=
  mkIface (if_spec i) (if_cmd i) (if_data i) (if_rdqs i) (if_wdqs i) (if_wck i) (if_clock i) (if_dbi i) (if_ranks i) (if_pat i)
          (if_last i) (a mod 65536, b mod 65536) (if_buf i) (if_enabled i).
(* setParityCheckMode: L6 301-305. *)
Definition if_set_parity (e : bool) (i : iface) : result iface :=
  check (fi_wck_on (if_spec i) || negb e)
    (match if_pat i with
     | Pat6 h => Value (if_with_pat i (Pat6 (mkHandler6 (mkExtra (ex_burst (p6_extra h)) (ex_groups (p6_extra h)) e) (p6_map h) (p6_last h))))
     | Pat _ => Value i
     end).
(* enable: L6 268-276. *)
Definition if_enable (t : N) (i : iface) : result iface :=
  if if_enabled i then Value i
  else
    k <- (if fi_wck_on (if_spec i) then clock_start (if_wck i) t else Value (if_wck i)) ;;
    c <- clock_start (if_clock i) t ;;
    Value (mkIface (if_spec i) (if_cmd i) (if_data i) (if_rdqs i) (if_wdqs i) k c (if_dbi i) (if_ranks i) (if_pat i) t (if_meta i) (if_buf i) true).
(* disable: L6 278-286. *)
Definition if_disable (t : N) (i : iface) : result iface :=
  if if_enabled i then
    k <- (if fi_wck_on (if_spec i) then clock_stop (if_wck i) t else Value (if_wck i)) ;;
    c <- clock_stop (if_clock i) t ;;
    Value (mkIface (if_spec i) (if_cmd i) (if_data i) (if_rdqs i) (if_wdqs i) k c (if_dbi i) (if_ranks i) (if_pat i) t (if_meta i) (if_buf i) false)
  else Value i.

(* ---- statistics ---- *)

(* The prepos part: D4 339-349. *)
Definition prepos_of (r : rank_if) : prepos :=
  mkPrepos (ri_rm r) (ri_rmt r) (ri_wm r) (ri_wmt r) (ri_rs r) (ri_ws r).
(* rank_total.resize and the loop: D4 339-349; m_ranks[i] is undefined past the
   end. *)
Definition fill_rank (ranks : list rank_if) (k : nat) (l : list cycle_stats) : result (list cycle_stats) :=
  r <- fetch ranks k ;; s <- fetch l k ;; put l k (mkCS (cs_counter s) (cs_cycles s) (prepos_of r)).
(* With fill_rank: rank_total.resize and the loop: D4 339-349; m_ranks[i] is
   undefined past the end. *)
Definition resize_stats (l : list cycle_stats) (n : nat) : list cycle_stats := firstn n l ++ repeat cycle_stats0 (n - length l).
(* With fill_rank: rank_total.resize and the loop: D4 339-349; m_ranks[i] is
   undefined past the end. *)
Definition fill_ranks (i : iface) (l : list cycle_stats) : result (list cycle_stats) :=
  match fi_std (if_spec i) with
  | DDR4 => loop (fill_rank (if_ranks i)) (seq 0 (fi_ranks (if_spec i))) (resize_stats l (fi_ranks (if_spec i)))
  | _ => Value l
  end.
(* NumDQsPairs: D4 335-338; the second doubling: D5 276-281, L4 263-266. *)
Definition dqs_lines (p : ifspec) : N :=
  match fi_std p with DDR4 | DDR5 | LPDDR4 => if fi_bits p =? 16 then 4 else 2 | _ => 2 end.
(* The DBI pins: D4 366-371; L4 256-261; L5 387-392. *)
Definition dbi_stats (i : iface) (t : N) (read : bool) : result bus_stats :=
  match if_dbi i with Some x => dbi_if_stats x t 2 read | None => Value stats0 end.
(* getWindowStats: D4 333-372; D5 262-282; L4 242-267; L5 373-393; L6 357-371.  st
   is what the core has filled in, with all bus statistics zero (DDR4.cpp 60-65).
   2.0 is converted to uint64_t by operator* (util/bus_types.h 52-54).  The
   doubling of D5 and L4 is a second multiplication. *)
Definition if_window (i : iface) (t : N) (st : sim_stats) : result sim_stats :=
  let p := if_spec i in
  ranks <- fill_ranks i (ss_rank st) ;;
  cmd <- bus_get_stats (if_cmd i) t ;;
  d <- data_get (if_data i) t ;;
  rdbi <- dbi_stats i t true ;;
  wdbi <- dbi_stats i t false ;;
  let dqs k := match fi_std p with
               | DDR5 | LPDDR4 => if fi_bits p =? 16 then stats_mul 2 (stats_mul 2 (clock_get k t)) else stats_mul 2 (clock_get k t)
               | _ => stats_mul (dqs_lines p) (clock_get k t)
               end in
  let two_clocks := match fi_std p with LPDDR5 | LPDDR6 => true | _ => false end in
  Value (mkSim cmd (stats_add (ss_readBus st) (ds_read d)) (stats_add (ss_writeBus st) (ds_write d))
               (stats_mul 2 (clock_get (if_clock i) t))
               (if two_clocks then stats_mul 2 (clock_get (if_wck i) t) else ss_wClock st)
               (stats_add (ss_readDBI st) rdbi) (stats_add (ss_writeDBI st) wdbi)
               (stats_add (ss_togRead st) (ds_tread d)) (stats_add (ss_togWrite st) (ds_twrite d))
               (dqs (if_rdqs i)) (if two_clocks then ss_writeDQS st else dqs (if_wdqs i))
               (ss_bank st) ranks).
