(* C77: a trace file is read in chunks. *)
From Coq Require Import NArith String List Bool Ascii Arith Lia.
From Verif Require Import Base Bits Command CsvModel CliModel CliSpec CsvProofs CliExamples ChunkModel ChunkSpec ChunkProofs ChunkLines ChunkExamples.
Import ListNotations.

(* Whatever the size of the chunks, the rows are those of the file read in one
   piece, each once and in order, if no row is longer than a chunk, no chunk ends
   between two line end characters and no double quote is doubled. *)
Theorem C77_chunks : forall n page text rows, 3 <= n -> no_doubled text -> fits n text -> smooth n text -> csv_rows text = Some rows -> rows <> [] ->
  exists k, forall fuel, k <= fuel -> read_file fuel (mkSource n page text) = Some (Value rows).
Proof. exact chunks_read. Qed.
Print Assumptions C77_chunks.
Example C77_chunks_case : no_doubled mixed_text /\ fits 16 mixed_text /\ smooth 16 mixed_text /\ length mixed_text = 45 /\ csv_rows mixed_text = Some mixed_rows.
Proof. exact mixed_ok. Qed.
Example C77_chunks_fuel_case : read_file 3 (mkSource 16 4 mixed_text) = Some (Value mixed_rows) /\ read_file 1 (mkSource 16 4 mixed_text) = None.
Proof. exact mixed_fuel. Qed.

(* In particular a file of lines without double quotes, each ended by one
   character, is split into exactly the fields of its lines. *)
Theorem C77_lines : forall n page ls, 3 <= n -> ls <> [] -> Forall simple_line ls -> Forall (fun l => line_length l <= n) ls -> no_mark (lines_text ls) ->
  exists k, forall fuel, k <= fuel -> read_file fuel (mkSource n page (lines_text ls)) = Some (Value (map (fun l => fields (li_cells l)) ls)).
Proof. exact simple_chunks. Qed.
Print Assumptions C77_lines.
Example C77_lines_case : Forall simple_line simple_lines /\ Forall (fun l => line_length l <= 100) simple_lines /\ no_mark (lines_text simple_lines) /\ length (lines_text simple_lines) = 143.
Proof. exact simple_ok. Qed.

(* So the commands of a trace do not depend on the size of the chunks. *)
Theorem C77_commands : forall n page text r, 3 <= n -> no_doubled text -> fits n text -> smooth n text -> parse_command_list text = r -> r <> Value (Some []) ->
  exists k rows, parse_rows rows = r /\ forall fuel, k <= fuel -> read_file fuel (mkSource n page text) = Some (Value rows).
Proof. exact chunk_commands. Qed.
Print Assumptions C77_commands.
Example C77_commands_case : no_doubled (lines_text simple_lines) /\ fits 100 (lines_text simple_lines) /\ smooth 100 (lines_text simple_lines) /\
  parse_command_list (lines_text simple_lines) = Value (Some (ex_commands ++ [ex_end])).
Proof. exact simple_commands. Qed.

(* Every condition is needed.  If the two characters at the end of a line fall into
   two chunks, a row of one empty field is read besides. *)
Theorem C77_split_end_refuted : forall n page cells a b, 3 <= n -> 2 <= length cells -> Forall cell_ok cells -> line_end a -> line_end b -> length (cells_text cells) + 1 = n ->
  no_mark (cells_text cells) -> forall fuel, 1 <= fuel -> read_file fuel (mkSource n page (lines_text [mkLine cells [a; b]])) = Some (Value [fields cells; [[]]]).
Proof. exact split_end. Qed.
Print Assumptions C77_split_end_refuted.
Example C77_split_end_case : 2 <= length ex_last /\ Forall cell_ok ex_last /\ no_mark (cells_text ex_last) /\ length (cells_text ex_last) = 45 /\
  parse_rows [fields ex_last] = Value (Some [ex_end]) /\ parse_rows [fields ex_last; [[]]] = Value None.
Proof. split; [apply ex_last_ok|]. split; [apply ex_last_ok|]. split; [intros r H; vm_compute in H; discriminate H|]. split; [vm_compute; reflexivity|]. split; vm_compute; reflexivity. Qed.
(* If the first row is longer than a chunk, nothing is read. *)
Theorem C77_long_first_refuted : forall n page text, 0 < n -> n < length text -> endless (firstn n text) -> forall fuel, read_file fuel (mkSource n page text) = Some (Value []).
Proof. exact long_first. Qed.
Print Assumptions C77_long_first_refuted.
Example C77_long_first_case : endless (firstn 20 (ch "0,ACT,0,0,0,3,0,   and much more")) /\ length (ch "0,ACT,0,0,0,3,0,   and much more") = 32.
Proof. exact long_line. Qed.
(* If a later one is, the reading never ends. *)
Theorem C77_long_later_refuted : forall n page ls tail, ls <> [] -> Forall line_ok ls -> length (lines_text ls) <= n -> no_mark (lines_text ls ++ tail) ->
  n < length tail -> endless (firstn n tail) -> forall fuel, read_file fuel (mkSource n page (lines_text ls ++ tail)) = None.
Proof. exact long_later. Qed.
Print Assumptions C77_long_later_refuted.
Example C77_long_later_case : Forall line_ok short_lines /\ length (lines_text short_lines) = 16 /\ no_mark (lines_text short_lines ++ ch "0,ACT,0,0,0,3,0,   and much more").
Proof. exact short_ok. Qed.
(* A double quote doubled at the end of one chunk is taken for one in the first field
   of the next. *)
Theorem C77_doubled_refuted : exists n page text rows, csv_rows text = Some rows /\ fits n text /\ smooth n text /\
  exists wrong, wrong <> rows /\ forall fuel, 1 <= fuel -> read_file fuel (mkSource n page text) = Some (Value wrong).
Proof. exists 13, 4096, stale_text. eexists. split; [apply stale|]. split; [apply stale|]. split; [apply stale|]. eexists. split; [|apply stale]. vm_compute. discriminate. Qed.
Print Assumptions C77_doubled_refuted.
(* A byte order mark with nothing behind it is read as a field; an empty file cannot
   be mapped. *)
Theorem C77_mark_refuted : forall n page fuel, 3 <= n -> csv_rows mark_text = Some [] /\ read_file fuel (mkSource n page mark_text) = Some (Value [[mark_text]]).
Proof. exact marked. Qed.
Print Assumptions C77_mark_refuted.
Theorem C77_empty_refuted : forall n page fuel, 1 <= n -> csv_rows [] = Some [] /\ read_file fuel (mkSource n page []) = Some (Fails Exception).
Proof. exact empty_file. Qed.
Print Assumptions C77_empty_refuted.
