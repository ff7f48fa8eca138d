(* The CSV reader of the command line program, as parse_command_list uses it:
   delimiter comma, double quotes, trimming of blanks and tabs, no header.  Models
   src/cli/lib/DRAMPower/cli/csv.hpp, cited below as C.  The program configures it
   in src/cli/lib/DRAMPower/cli/run.cpp 102-106.

   Simplifications: the file is one chunk (ITERATION_CHUNK_SIZE, C 4792: less than
   10 MB; ChunkModel has files of any size) and not empty; the reading thread and the mapping of the file are not
   modelled; the int and unsigned casts of field_start do not truncate below 10
   MB. *)
From Coq Require Import NArith List Bool Ascii Arith.
From Verif Require Import Base Bits.
Import ListNotations.

(* enum class ParseFlags: C 4807-4813. *)
Inductive flag := QUOTE_ESCAPE_QUOTE | QUOTE | NOT_SPECIAL | DELIMITER | NEWLINE.
(* The delimiter, the quote and the ends of lines: C 5854-5869 with the defaults of
   CSVFormat. *)
Definition comma : ascii := "044".
(* With comma: The delimiter, the quote and the ends of lines: C 5854-5869 with
   the defaults of CSVFormat. *)
Definition quote : ascii := "034".
(* With comma: The delimiter, the quote and the ends of lines: C 5854-5869 with
   the defaults of CSVFormat. *)
Definition cr : ascii := "013".
(* With comma: The delimiter, the quote and the ends of lines: C 5854-5869 with
   the defaults of CSVFormat. *)
Definition lf : ascii := "010".
(* make_parse_flags and parse_flag: C 5854-5879. *)
Definition parse_flag (c : ascii) : flag :=
  if Ascii.eqb c quote then QUOTE
  else if Ascii.eqb c comma then DELIMITER
  else if Ascii.eqb c cr || Ascii.eqb c lf then NEWLINE
  else NOT_SPECIAL.
(* compound_parse_flag with quote_escape_flag: C 4817-4819. *)
Definition compound_flag (q : bool) (c : ascii) : flag :=
  if q then match parse_flag c with QUOTE => QUOTE_ESCAPE_QUOTE | _ => NOT_SPECIAL end else parse_flag c.
(* make_ws_flags for blank and tab: C 5885-5901, run.cpp 105. *)
Definition ws_flag (c : ascii) : bool := Ascii.eqb c " " || Ascii.eqb c "009".

(* RawCSVField: start relative to the row, length, has_double_quote. *)
(* C 5419-5434. *)
Record raw := mkRaw { rf_start : nat; rf_len : nat; rf_dq : bool }.
(* The members of IBasicCSVParser that parse() uses; lx_row and lx_fields are
   current_row (data_start and its fields so far), lx_rows the records pushed so
   far with their data_start. *)
(* C 6053-6092. *)
Record lexer := mkLexer {
  lx_pos : nat; lx_start : option nat; lx_len : nat; lx_quote : bool; lx_dq : bool; lx_row : nat; lx_fields : list raw; lx_rows : list (nat * list raw)
}.

(* The length of the longest prefix of characters with a property: the loops at C
   6936-6937, 6945-6946 and, backwards, 6952-6953. *)
Fixpoint span (f : ascii -> bool) (l : list ascii) : nat :=
  match l with c :: r => if f c then S (span f r) else O | [] => O end.
(* compound_parse_flag is NOT_SPECIAL: the condition at C 6945. *)
Definition plain (q : bool) (c : ascii) : bool := match compound_flag q c with NOT_SPECIAL => true | _ => false end.
(* parse_field: C 6931-6954. *)
Definition parse_field (inp : list ascii) (s : lexer) : lexer :=
  let pos1 := lx_pos s + span ws_flag (skipn (lx_pos s) inp) in
  let start := match lx_start s with Some k => k | None => pos1 - lx_row s end in
  let pos2 := pos1 + span (plain (lx_quote s)) (skipn pos1 inp) in
  let len := pos2 - (start + lx_row s) in
  let len' := len - span ws_flag (rev (firstn pos2 inp)) in
  mkLexer pos2 (Some start) len' (lx_quote s) (lx_dq s) (lx_row s) (lx_fields s) (lx_rows s).
(* push_field: C 6956-6980. *)
Definition push_field (s : lexer) : lexer :=
  let f := mkRaw (match lx_start s with Some k => k | None => O end) (lx_len s) (lx_dq s) in
  mkLexer (lx_pos s) None 0 (lx_quote s) false (lx_row s) (lx_fields s ++ [f]) (lx_rows s).
(* push_row: C 7063-7066, and the new current_row: C 7012. *)
Definition push_row (s : lexer) : lexer :=
  mkLexer (lx_pos s) (lx_start s) (lx_len s) (lx_quote s) (lx_dq s) (lx_pos s) [] (lx_rows s ++ [(lx_row s, lx_fields s)]).
(* data_pos += n; field_length += m; quote_escape = q: as in C 6998-7056. *)
Definition advance (n m : nat) (s : lexer) : lexer :=
  mkLexer (lx_pos s + n) (lx_start s) (lx_len s + m) (lx_quote s) (lx_dq s) (lx_row s) (lx_fields s) (lx_rows s).
(* With advance: data_pos += n; field_length += m; quote_escape = q: as in C
   6998-7056. *)
Definition set_quote (q : bool) (s : lexer) : lexer :=
  mkLexer (lx_pos s) (lx_start s) (lx_len s) q (lx_dq s) (lx_row s) (lx_fields s) (lx_rows s).
(* One iteration of the loop of parse() at character c; None: return.  C
   6994-7057. *)
Definition lex_step (inp : list ascii) (c : ascii) (s : lexer) : option lexer :=
  match compound_flag (lx_quote s) c with
  | DELIMITER => Some (advance 1 0 (push_field s))
  | NEWLINE =>
      let s1 := advance 1 0 s in
      let s2 := match nth_error inp (lx_pos s1) with
                | Some d => match parse_flag d with NEWLINE => advance 1 0 s1 | _ => s1 end
                | None => s1
                end in
      Some (push_row (push_field s2))
  | NOT_SPECIAL => Some (parse_field inp s)
  | QUOTE_ESCAPE_QUOTE =>
      match nth_error inp (S (lx_pos s)) with
      | None => None
      | Some d =>
          match parse_flag d with
          | DELIMITER | NEWLINE => Some (advance 1 0 (set_quote false s))
          | QUOTE => let s1 := advance 2 2 s in
                     Some (mkLexer (lx_pos s1) (lx_start s1) (lx_len s1) (lx_quote s1) true (lx_row s1) (lx_fields s1) (lx_rows s1))
          | _ => Some (advance 1 1 s)
          end
      end
  | QUOTE =>
      if Nat.eqb (lx_len s) 0 then
        let s1 := advance 1 0 (set_quote true s) in
        Some (match lx_start s, nth_error inp (lx_pos s1) with
              | None, Some d => if ws_flag d then s1
                                else mkLexer (lx_pos s1) (Some (lx_pos s1 - lx_row s1)) (lx_len s1) (lx_quote s1) (lx_dq s1) (lx_row s1) (lx_fields s1) (lx_rows s1)
              | _, _ => s1
              end)
      else Some (advance 1 1 s)
  end.
(* The loop of parse(): C 6993.  Every iteration moves data_pos, so [fuel] is the
   number of characters; running out of it is a failure of the model. *)
Fixpoint lex_loop (fuel : nat) (inp : list ascii) (s : lexer) : option lexer :=
  match nth_error inp (lx_pos s) with
  | None => Some s
  | Some c => match fuel with
              | O => None
              | S fuel => match lex_step inp c s with Some s1 => lex_loop fuel inp s1 | None => Some s end
              end
  end.
(* trim_utf8_bom: C 7075-7086. *)
Definition bom (inp : list ascii) : nat :=
  match inp with
  | a :: b :: c :: _ => if Ascii.eqb a "239" && Ascii.eqb b "187" && Ascii.eqb c "191" then 3 else 0
  | _ => 0
  end.
(* end_feed: C 6913-6929. *)
Definition end_feed (inp : list ascii) (s : lexer) : lexer :=
  let empty_last := match rev inp with c :: _ => match parse_flag c with DELIMITER => true | _ => false end | [] => false end in
  let s1 := if Nat.ltb 0 (lx_len s) || empty_last then push_field s else s in
  match lx_fields s1 with [] => s1 | _ => push_row s1 end.
(* MmapParser::next for the only chunk: C 7094-7121; the parser as constructed. *)
Definition lex (inp : list ascii) : option lexer :=
  match lex_loop (length inp) inp (mkLexer (bom inp) None 0 false false 0 [] []) with
  | Some s => Some (end_feed inp s)
  | None => None
  end.

(* get_field: C 7683-7716. *)
Fixpoint undouble (prev : bool) (l : list ascii) : list ascii :=
  match l with
  | [] => []
  | c :: r => match parse_flag c with
              | QUOTE => if prev then undouble false r else c :: undouble true r
              | _ => c :: undouble prev r
              end
  end.
(* With undouble: get_field: C 7683-7716. *)
Definition get_field (inp : list ascii) (row : nat) (f : raw) : list ascii :=
  let s := firstn (rf_len f) (skipn (row + rf_start f) inp) in
  if rf_dq f then undouble false s else s.
(* The rows that iterating over a CSVReader gives: with no header every row is kept
   (C 4965-4968, 7198-7199, 7536-7537). *)
Definition csv_rows (inp : list ascii) : option (list (list (list ascii))) :=
  match lex inp with
  | Some s => Some (map (fun r => map (get_field inp (fst r)) (snd r)) (lx_rows s))
  | None => None
  end.

(* ---- numbers ---- *)

Local Open Scope N_scope.
(* DataType, with the integral types in one: C 5080-5098. *)
Inductive data_type := CSV_NULL | CSV_STRING | CSV_INT | CSV_DOUBLE.
(* A digit, and its value: C 5368-5369. *)
Definition digit_of (c : ascii) : option N :=
  let n := N_of_ascii c in if (48 <=? n) && (n <=? 57) then Some (n - 48) else None.
(* With digit_of: A digit, and its value: C 5368-5369. *)
Definition is_digit (c : ascii) : bool := match digit_of c with Some _ => true | None => false end.
(* The local variables of data_type(): C 5303-5313.  places_after_decimal and
   decimal_part only enter the value of a number that is not integral, which get()
   refuses. *)
Record scan := mkScan { sc_ws : bool; sc_neg : bool; sc_dot : bool; sc_digit : bool; sc_has : bool; sc_float : bool; sc_int : N }.
(* With scan: The local variables of data_type(): C 5303-5313. 
   places_after_decimal and decimal_part only enter the value of a number that is
   not integral, which get() refuses. *)
Definition scan0 : scan := mkScan true true true true false false 0.
(* data_type(): C 5298-5402, with _determine_integral_type (C 5269-5285).  The value
   is returned as its sign and absolute value.  [prev] is in[i - 1].

   long double has a 64 bit mantissa here (x86), so integral_part is exact below
   2^64 and not below 2^64 above it: the comparison with the greatest int64_t is
   that of the exact number.  For a field with an exponent the value of pow10 is not used.
   in[i + 1] behind the last character of the field is undefined. *)
Fixpoint scan_run (prev : option ascii) (l : list ascii) (s : scan) : result (data_type * (bool * N)) :=
  match l with
  | [] => if sc_has s
          then Value ((if sc_float s || (2 ^ 63 - 1 <? sc_int s) then CSV_DOUBLE else CSV_INT), (negb (sc_neg s), sc_int s))
          else Value (CSV_NULL, (false, 0))
  | c :: r =>
      if Ascii.eqb c " " then
        if sc_ws s then scan_run (Some c) r s
        else match prev with
             | Some d => if is_digit d then scan_run (Some c) r (mkScan true (sc_neg s) (sc_dot s) false (sc_has s) (sc_float s) (sc_int s)) else Value (CSV_STRING, (false, 0))
             | None => Fails UB
             end
      else if Ascii.eqb c "-" then
        if sc_neg s then scan_run (Some c) r (mkScan (sc_ws s) false (sc_dot s) (sc_digit s) (sc_has s) (sc_float s) (sc_int s)) else Value (CSV_STRING, (false, 0))
      else if Ascii.eqb c "." then
        if sc_dot s then scan_run (Some c) r (mkScan (sc_ws s) (sc_neg s) false (sc_digit s) (sc_has s) true (sc_int s)) else Value (CSV_STRING, (false, 0))
      else if Ascii.eqb c "e" || Ascii.eqb c "E" then
        let exponent (x : result (data_type * (bool * N))) :=
          y <- x ;; Value (match fst y with CSV_INT => CSV_DOUBLE | _ => CSV_STRING end, (false, 0)) in
        if sc_float s || match prev, r with Some d, _ :: _ => is_digit d | _, _ => false end then
          match r with
          | [] => Fails UB
          | d :: r' => if Ascii.eqb d "+" then exponent (match r' with [] => Value (CSV_NULL, (false, 0)) | _ => scan_run None r' scan0 end)
                       else exponent (scan_run None r scan0)
          end
        else Value (CSV_STRING, (false, 0))
      else match digit_of c with
           | Some d =>
               if sc_digit s
               then scan_run (Some c) r (mkScan false (sc_neg s) (sc_dot s) (sc_digit s) true (sc_float s) (if sc_float s then sc_int s else sc_int s * 10 + d))
               else Value (CSV_STRING, (false, 0))
           | None => Value (CSV_STRING, (false, 0))
           end
  end.
(* data_type() with its first test, for an empty field: C 5299-5301. *)
Definition field_type (l : list ascii) : result (data_type * (bool * N)) :=
  match l with [] => Value (CSV_NULL, (false, 0)) | _ => scan_run None l scan0 end.
(* CSVField::get<uint64_t> and get<std::size_t>: C 5566-5601. *)
Definition get_uint (l : list ascii) : result N :=
  x <- field_type l ;;
  match x with
  | (CSV_NULL, _) | (CSV_STRING, _) => Fails Exception
  | (CSV_DOUBLE, _) => Fails Exception
  | (CSV_INT, (neg, n)) => if neg && (0 <? n) then Fails Exception
                           else if 2 ^ 64 - 1 <? n then Fails Exception
                           else Value n
  end.
