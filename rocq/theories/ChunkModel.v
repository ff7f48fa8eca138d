(* The CSV reader of the command line program for files of any size: the file is
   read in chunks, each by a thread of its own.  Models
   src/cli/lib/DRAMPower/cli/csv.hpp, cited below as C, as run.cpp 102-108 uses it.

   The chunk size (ITERATION_CHUNK_SIZE, C 4792: 10 MB) and the size of a memory
   page are parameters.  A row keeps its chunk in memory (data, C 5784), so it
   is represented by its fields.  The int and unsigned casts of field_start do not
   truncate below chunks of 2 GB. *)
From Coq Require Import NArith List Bool Ascii Arith.
From Verif Require Import Base Bits CsvModel.
Import ListNotations.

(* The row as the program sees it: operator[] and get_sv, C 7683-7716. *)
Definition row := list (list ascii).
(* The members of MmapParser that outlive next(): mmap_pos, field_has_double_quote,
   unicode_bom_scan and _eof.  C 6066, 6089, 6095, 6213. *)
Record parser := mkParser { ps_pos : nat; ps_dq : bool; ps_bom : bool; ps_eof : bool }.
(* The initial values: C 6066, 6089, 6095, 6213. *)
Definition parser0 : parser := mkParser 0 false false false.
(* What is read: chunk size, page size and the file. *)
Record source := mkSource { so_chunk : nat; so_page : nat; so_text : list ascii }.
(* The chunk that next() maps: C 7101-7110. *)
Definition chunk (f : source) (ps : parser) : list ascii := firstn (so_chunk f) (skipn (ps_pos ps) (so_text f)).
(* trim_utf8_bom: C 7075-7086. *)
Definition bom_skip (ps : parser) (data : list ascii) : nat := if ps_bom ps then 0 else bom data.
(* The state in which parse() starts: C 7095-7097, 7113, 6988-6991; the flag of
   doubled quotes is not reset. *)
Definition lex_start (ps : parser) (data : list ascii) : lexer := mkLexer (bom_skip ps data) None 0 false (ps_dq ps) 0 [] [].
(* The fields of a pushed row: C 7683-7716. *)
Definition row_of (data : list ascii) (r : nat * list raw) : row := map (get_field data (fst r)) (snd r).
(* mmap_pos == source_size || no_chunk(): C 7116, 6073. *)
Definition is_last (f : source) (ps : parser) (data : list ascii) : bool :=
  Nat.eqb (ps_pos ps + length data) (length (so_text f)) || Nat.ltb (length (so_text f)) (so_chunk f).
(* The mapping of no bytes fails when it starts at a page: C 948-992, with mmap
   refusing length 0. *)
Definition mappable (f : source) (ps : parser) (data : list ascii) : bool :=
  negb (Nat.eqb (length data) 0) || negb (Nat.eqb (ps_pos ps mod so_page f) 0).
(* What next() does: the rows that parse() pushes, those that end_feed pushes, and
   the parser afterwards.  C 7094-7121.  A chunk that cannot be mapped throws an
   error code in the reading thread, which ends the program. *)
Record read_chunk := mkRead { rc_rows : list row; rc_end : list row; rc_parser : parser }.
(* MmapParser::next: C 7094-7121. *)
Definition next (f : source) (ps : parser) : result read_chunk :=
  let data := chunk f ps in
  if mappable f ps data then
    match lex_loop (length data) data (lex_start ps data) with
    | None => Fails UB
    | Some s =>
        let last := is_last f ps data in
        let e := if last then end_feed data s else s in
        let all := map (row_of data) (lx_rows e) in
        Value (mkRead (map (row_of data) (lx_rows s)) (skipn (length (lx_rows s)) all)
                      (mkParser (ps_pos ps + lx_row s) (lx_dq e) (ps_bom ps || Nat.leb 3 (length data)) (ps_eof ps || last)))
    end
  else Fails Exception.
(* All rows of a chunk, in order. *)
Definition rc_all (r : read_chunk) : list row := rc_rows r ++ rc_end r.

(* ---- one thread after the other ---- *)

(* read_row until it returns false, C 7519-7554, when every reading thread is done
   before read_row looks again: as long as the end of the file is not reached the
   next chunk is read.  [fuel] counts chunks; None: still reading. *)
Fixpoint read_on (fuel : nat) (f : source) (ps : parser) : option (result (list row)) :=
  if ps_eof ps then Some (Value [])
  else match fuel with
       | O => None
       | S fuel => match next f ps with
                   | Fails e => Some (Fails e)
                   | Value r => match read_on fuel f (rc_parser r) with
                                | Some (Value l) => Some (Value (rc_all r ++ l))
                                | x => x
                                end
                   end
       end.
(* The constructor reads the first chunk (C 7417, 6418-6421).  begin() reads once
   more if it brought no row, and if there still is none the loop over the rows is
   not entered (C 7565-7575). *)
Definition read_file (fuel : nat) (f : source) : option (result (list row)) :=
  match next f parser0 with
  | Fails e => Some (Fails e)
  | Value r =>
      let go (r : read_chunk) := match read_on fuel f (rc_parser r) with Some (Value l) => Some (Value (rc_all r ++ l)) | x => x end in
      match rc_all r with
      | [] => match next f (rc_parser r) with
              | Fails e => Some (Fails e)
              | Value r2 => match rc_all r2 with [] => Some (Value []) | _ => go r2 end
              end
      | _ => go r
      end
  end.
