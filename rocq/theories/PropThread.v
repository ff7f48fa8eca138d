(* C78: the two threads of the CSV reader. *)
From Coq Require Import NArith String List Bool Ascii Arith Lia.
From Verif Require Import Base Bits CsvModel CliModel CliSpec CliExamples ChunkModel ChunkSpec ChunkProofs ChunkExamples ThreadModel ThreadProofs ThreadEnds ThreadText ThreadExamples.
Import ListNotations.

(* Whatever the schedule: the rows that the loop gets are at any time the first rows
   of the file, in order, and nothing else but possibly the last row once more, and
   that only if the last row has no end.  When neither thread can go on, the loop is
   over, the reading thread has ended, and the rows of the file are those the loop got
   and those left in the queue; or the reading thread has failed, which takes a file
   that ends with a row and with a page. *)
Theorem C78_schedules : forall n page text rows, 3 <= n -> no_doubled text -> fits n text -> smooth n text -> csv_rows text = Some rows -> rows <> [] ->
  exists s0, opened (mkSource n page text) = Value s0 /\ forall l s, schedule (mkSource n page text) l s0 = Some s ->
    exists more, (more = [] \/ (~ complete text /\ more = [last rows []])) /\ (exists rest, th_out s ++ rest = rows ++ more) /\
      (at_rest (mkSource n page text) s ->
         (th_main s = Over /\ th_worker s = Ended /\ th_out s ++ th_queue s = rows ++ more) \/
         (th_worker s = Failed Exception /\ complete text /\ length text mod page = 0 /\ th_out s ++ th_queue s = rows)).
Proof. exact reader_threads. Qed.
Print Assumptions C78_schedules.
Example C78_schedules_case : no_doubled open_text /\ fits 16 open_text /\ smooth 16 open_text /\ csv_rows open_text = Some open_rows /\ ~ complete open_text.
Proof. exact open_ok. Qed.
Example C78_schedules_waiting_case : from_open open_file (main_ 7 ++ worker_ 1 ++ main_ 2) = Some (Waiting, Notified, firstn 2 open_rows, []) /\
  from_open open_file (main_ 7 ++ worker_ 1 ++ main_ 3) = None /\ from_open open_file (main_ 7 ++ worker_ 1 ++ main_ 2 ++ worker_ 4 ++ main_ 5) = Some (Over, Ended, open_rows, []).
Proof. repeat split; vm_compute; reflexivity. Qed.

(* A file that fits into one chunk is read whole under every schedule. *)
Theorem C78_one_chunk : forall n page text rows, 3 <= n -> length text <= n -> csv_rows text = Some rows -> rows <> [] ->
  exists s0, opened (mkSource n page text) = Value s0 /\ forall l s, schedule (mkSource n page text) l s0 = Some s ->
    th_worker s = Ended /\ (at_rest (mkSource n page text) s -> th_main s = Over /\ th_out s = rows).
Proof. exact one_chunk. Qed.
Print Assumptions C78_one_chunk.
Example C78_one_chunk_case : length open_text <= 24 /\ csv_rows open_text = Some open_rows /\ from_open (mkSource 24 8 open_text) (main_ 6) = Some (Over, Ended, open_rows, []).
Proof. split; [vm_compute; lia|]. split; vm_compute; reflexivity. Qed.

(* So the commands of such a trace do not depend on the schedule. *)
Theorem C78_commands : forall n page text, 3 <= n -> length text <= n -> parse_command_list text <> Value (Some []) ->
  exists s0, opened (mkSource n page text) = Value s0 /\ forall l s, schedule (mkSource n page text) l s0 = Some s -> at_rest (mkSource n page text) s ->
    parse_rows (th_out s) = parse_command_list text.
Proof. exact one_chunk_commands. Qed.
Print Assumptions C78_commands.
Example C78_commands_case : parse_command_list (lines_text simple_lines) = Value (Some (ex_commands ++ [ex_end])) /\
  from_open (mkSource 143 8 (lines_text simple_lines)) (main_ 7) = Some (Over, Ended, map (fun l => fields (li_cells l)) simple_lines, []).
Proof. split; [apply simple_commands|]. vm_compute. reflexivity. Qed.

(* Every schedule comes to its end if reading one chunk after the other does. *)
Theorem C78_ends : forall f fuel rows, read_file fuel f = Some (Value rows) -> rows <> [] ->
  exists s0 n, opened f = Value s0 /\ forall l s, schedule f l s0 = Some s -> length l <= n.
Proof. exact reader_ends. Qed.
Print Assumptions C78_ends.
Example C78_ends_case : read_file 1 open_file = Some (Value open_rows).
Proof. vm_compute. reflexivity. Qed.

(* Reading one chunk after the other, as C77 has it, is one of the schedules. *)
Theorem C78_one_after_the_other : forall f fuel rows, read_file fuel f = Some (Value rows) -> rows <> [] ->
  exists s0 l s, opened f = Value s0 /\ schedule f l s0 = Some s /\ at_rest f s /\ th_main s = Over /\ th_out s = rows.
Proof. exact reader_can. Qed.
Print Assumptions C78_one_after_the_other.
Example C78_one_after_the_other_case : read_file 3 (mkSource 16 4 mixed_text) = Some (Value mixed_rows).
Proof. vm_compute. reflexivity. Qed.

(* In a file of two chunks rows can be lost: read_row sees an empty queue, the thread
   reads the rest of the file, and read_row sees that no thread is active and that the
   file is at its end. *)
Theorem C78_lost_refuted : exists f rows l s0 s, read_file 1 f = Some (Value rows) /\ opened f = Value s0 /\ schedule f l s0 = Some s /\ at_rest f s /\
  th_main s = Over /\ th_out s <> rows /\ th_out s ++ th_queue s = rows.
Proof.
  exists closed_file, closed_rows, losing. do 2 eexists. split; [vm_compute; reflexivity|]. split; [vm_compute; reflexivity|]. split; [vm_compute; reflexivity|].
  split; [split; reflexivity|]. split; [reflexivity|]. split; [vm_compute; discriminate|vm_compute; reflexivity].
Qed.
Print Assumptions C78_lost_refuted.
(* The last row can be read twice: read_row sees that the thread is not yet active and
   the file not at its end, and starts another one when the first is done. *)
Theorem C78_twice_refuted : exists f rows x l s0 s, read_file 1 f = Some (Value (rows ++ [x])) /\ opened f = Value s0 /\ schedule f l s0 = Some s /\ at_rest f s /\
  th_main s = Over /\ th_out s = rows ++ [x; x].
Proof.
  exists open_file, (firstn 2 open_rows), (nth 2 open_rows []), doubling. do 2 eexists. split; [vm_compute; reflexivity|]. split; [vm_compute; reflexivity|]. split; [vm_compute; reflexivity|].
  split; [split; reflexivity|]. split; vm_compute; reflexivity.
Qed.
Print Assumptions C78_twice_refuted.
(* In the same way the program can end with an exception no one catches. *)
Theorem C78_thrown_refuted : exists f rows l s0 s, read_file 1 f = Some (Value rows) /\ opened f = Value s0 /\ schedule f l s0 = Some s /\ at_rest f s /\
  th_worker s = Failed Exception.
Proof.
  exists closed_file, closed_rows, throwing. do 2 eexists. split; [vm_compute; reflexivity|]. split; [vm_compute; reflexivity|]. split; [vm_compute; reflexivity|].
  split; [split; reflexivity|]. reflexivity.
Qed.
Print Assumptions C78_thrown_refuted.
