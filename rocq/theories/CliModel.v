(* The command line program: reading a trace, running it and labelling the result.
   Citations: R = src/cli/lib/DRAMPower/cli/run.cpp, U = util.cpp beside it, M =
   src/cli/main/main.cpp.  Not modelled: the arguments (M 20-47), the JSON of
   memspec and config (R 51-97, 244-264), the printing of numbers. *)
From Coq Require Import NArith QArith String List Bool Ascii Arith.
From Verif Require Import Base Command CoreModel Bits StatsModel EnergyModel IfEnergyModel InterfaceModel DramModel CsvModel.
Import ListNotations.
Local Open Scope N_scope.

(* The value of a hexadecimal digit, as strtol reads it. *)
(* U 32 (std::stoi with base 16). *)
Definition hex_digit (c : ascii) : option N :=
  let n := N_of_ascii c in
  if (48 <=? n) && (n <=? 57) then Some (n - 48)
  else if (65 <=? n) && (n <=? 70) then Some (n - 55)
  else if (97 <=? n) && (n <=? 102) then Some (n - 87)
  else None.
(* isspace in the C locale. *)
(* U 32 (std::stoi skips blanks). *)
Definition is_space (c : ascii) : bool := let n := N_of_ascii c in (n =? 32) || ((9 <=? n) && (n <=? 13)).
(* static_cast<uint8_t>(std::stoi(s, nullptr, 16)) for a string of two characters:
   U 31.  strtol skips blanks, takes a sign, takes digits as long as there are
   any, and stoi throws if there was none.  A prefix 0x needs three characters;
   0 and x alone are the number 0. *)
Definition stoi2 (a b : ascii) : result N :=
  match hex_digit a with
  | Some x => Value (match hex_digit b with Some y => 16 * x + y | None => x end)
  | None =>
      match hex_digit b with
      | Some y => if is_space a || Ascii.eqb a "+" then Value y
                  else if Ascii.eqb a "-" then Value ((256 - y) mod 256)
                  else Fails Exception
      | None => Fails Exception
      end
  end.
(* The loop U 29-32. *)
Fixpoint hex_bytes (l : list ascii) : result (list N) :=
  match l with
  | a :: b :: r => x <- stoi2 a b ;; xs <- hex_bytes r ;; Value (x :: xs)
  | _ => Value []
  end.
(* hexStringToUint8Array: U 5-34. *)
Definition hex_array (l : list ascii) : result (list N) :=
  if Nat.eqb (Nat.modulo (length l) 2) 0
  then hex_bytes (match l with
                  | a :: b :: r => if Ascii.eqb a "0" && (Ascii.eqb b "x" || Ascii.eqb b "X") then r else l
                  | _ => l
                  end)
  else Fails Exception.

(* The body of the loop of parse_command_list: R 120-160; None: return false.  The
   second bank of an LPDDR6 command is that of LPDDR6Command.cpp 8-15.  A payload
   of no bytes is a pointer that is not null in the code and none here. *)
Definition parse_row (row : list (list ascii)) : result (option Command) :=
  match row with
  | f0 :: f1 :: f2 :: f3 :: f4 :: f5 :: f6 :: more =>
      ts <- get_uint f0 ;; rank <- get_uint f2 ;; group <- get_uint f3 ;; bank <- get_uint f4 ;; r <- get_uint f5 ;; col <- get_uint f6 ;;
      let ty := from_string (string_of_list_ascii f1) in
      let command data := mkCommand ts ty bank group rank r col (lpddr6_dbank bank) data (8 * N.of_nat (length data)) in
      if needs_data ty
      then match more with
           | [] => Value None
           | f7 :: _ => match hex_array f7 with Value data => Value (Some (command data)) | Fails UB => Fails UB | Fails _ => Value None end
           end
      else Value (Some (command []))
  | _ => Value None
  end.
(* parse_command_list over the rows: R 119-163. *)
Fixpoint parse_rows (rows : list (list (list ascii))) : result (option (list Command)) :=
  match rows with
  | [] => Value (Some [])
  | row :: rest =>
      c <- parse_row row ;;
      match c with
      | None => Value None
      | Some c => cs <- parse_rows rest ;; Value (match cs with Some cs => Some (c :: cs) | None => None end)
      end
  end.
(* parse_command_list: R 99-163.  The rows are read lazily, so a row is parsed even
   if the reader stops at a later one; the outcome is the same. *)
Definition parse_command_list (text : list ascii) : result (option (list Command)) :=
  match csv_rows text with Some rows => parse_rows rows | None => Fails UB end.

(* The outcome of runCommands, and runCommands: R 280-290, with Assertion and UB
   as the end of the program. *)
Inductive ran := Ran (d : dram) | ReturnsFalse | Dies (f : failure).
(* With ran: The outcome of runCommands, and runCommands: R 280-290, with
   Assertion and UB as the end of the program. *)
Fixpoint run_commands (p : dspec) (cs : list Command) (d : dram) : ran :=
  match cs with
  | [] => Ran d
  | c :: r => match do_dram_command p c d with
              | Returned d1 => run_commands p r d1
              | CoreStops Exception | InterfaceStops Exception _ => ReturnsFalse
              | CoreStops f | InterfaceStops f _ => Dies f
              end
  end.

(* makeResult: R 266-278: the two energies, and j["TotalEnergy"] of jsonFileResult
   (R 182) or the last line of stdoutResult (R 240). *)
Definition make_result (p : dspec) (d : dram) : dram_result (dram * (calc energy * calc ienergy * calc Q)) :=
  match calc_core p (dram_last_time d) d with
  | Returned (d1, a) =>
      match calc_interface p (dram_last_time d1) d1 with
      | Returned (d2, b) => Returned (d2, (a, b, getTotalEnergy a b))
      | CoreStops f => CoreStops f
      | InterfaceStops f c => InterfaceStops f c
      end
  | CoreStops f => CoreStops f
  | InterfaceStops f c => InterfaceStops f c
  end.

(* The entries with Rank, Device, Bank: jsonFileResult R 189-206, stdoutResult R
   225-237; getCLIArchitectureConfig: standards/ddr4/DDR4.cpp 40-46, ddr5/DDR5.cpp
   23-29, lpddr4/LPDDR4.cpp 33-39, lpddr5/LPDDR5.cpp 34-40, lpddr6/LPDDR6.cpp
   40-46.  None: the array has another length and jsonFileResult asserts. *)
Record labelled := mkLabelled { lb_rank : nat; lb_device : nat; lb_bank : nat; lb_index : nat }.
(* With labelled: The entries with Rank, Device, Bank: jsonFileResult R 189-206,
   stdoutResult R 225-237; getCLIArchitectureConfig: standards/ddr4/DDR4.cpp
   40-46, ddr5/DDR5.cpp 23-29, lpddr4/LPDDR4.cpp 33-39, lpddr5/LPDDR5.cpp 34-40,
   lpddr6/LPDDR6.cpp 40-46.  None: the array has another length and jsonFileResult
   asserts. *)
Definition labels (ranks devices banks : nat) : list labelled :=
  flat_map (fun r => flat_map (fun d => map (fun b => mkLabelled r d b (r * banks * devices + d * banks + b)) (seq 0 banks)) (seq 0 devices)) (seq 0 ranks).
(* With labelled: The entries with Rank, Device, Bank: jsonFileResult R 189-206,
   stdoutResult R 225-237; getCLIArchitectureConfig: standards/ddr4/DDR4.cpp
   40-46, ddr5/DDR5.cpp 23-29, lpddr4/LPDDR4.cpp 33-39, lpddr5/LPDDR5.cpp 34-40,
   lpddr6/LPDDR6.cpp 40-46.  None: the array has another length and jsonFileResult
   asserts. *)
Definition json_result (p : espec) (e : energy) : option (list (labelled * energy_info)) :=
  if Nat.eqb (length (en_bank e)) (es_ranks p * es_banks p * es_devices p)
  then Some (flat_map (fun l => match nth_error (en_bank e) (lb_index l) with Some x => [(l, x)] | None => [] end) (labels (es_ranks p) (es_devices p) (es_banks p)))
  else None.

(* The program once config and arguments are read: main.cpp 68-101, with getMemory
   as the constructor (R 50-97).  Failed: it returns 1 with a message; Died: it is
   ended by an exception nobody catches, an assertion or undefined behaviour. *)
Inductive program_end := Printed (core_energy : calc energy) (interface_energy : calc ienergy) (total : calc Q) | Failed | Died (f : failure).
(* With program_end: The program once config and arguments are read: main.cpp
   68-101, with getMemory as the constructor (R 50-97).  Failed: it returns 1 with
   a message; Died: it is ended by an exception nobody catches, an assertion or
   undefined behaviour. *)
Definition program (p : dspec) (trace : list ascii) : program_end :=
  match parse_command_list trace with
  | Fails f => Died f
  | Value None => Failed
  | Value (Some cs) =>
      match dram_new p with
      | Fails Exception => Failed
      | Fails f => Died f
      | Value d =>
          match run_commands p cs d with
          | ReturnsFalse => Failed
          | Dies f => Died f
          | Ran d1 => match make_result p d1 with
                      | Returned (_, (a, b, t)) => Printed a b t
                      | CoreStops f | InterfaceStops f _ => Died f
                      end
          end
      end
  end.
