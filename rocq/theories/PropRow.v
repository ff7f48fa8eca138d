(* C37, exactly: what is read from the rows of a trace. *)
From Coq Require Import NArith QArith String List Bool Ascii.
From Verif Require Import Base Bits Command CoreModel CsvModel DramModel CliModel CliSpec CliExamples RowSpec RowProofs MarkProofs MarkTop.
Import ListNotations.
Local Open Scope N_scope.

(* A field is read as a number if and only if it is one, up to blanks around it; with
   0 a minus may stand anywhere but between a digit and a blank. *)
Theorem C37_number_exactly : forall f n, get_uint f = Value n <-> reads_uint f n.
Proof. exact uint_exactly. Qed.
Print Assumptions C37_number_exactly.
Example C37_number_exactly_case : get_uint (ch "  042 ") = Value 42 /\ get_uint (ch "- 0") = Value 0 /\ get_uint (ch "0- ") = Fails Exception /\ get_uint (ch "--0") = Fails Exception.
Proof. repeat (split; [vm_compute; reflexivity|]). vm_compute. reflexivity. Qed.

(* The bytes of a payload: pairs of characters behind an optional 0x, each pair two
   digits, or a digit and anything, or a blank or a sign and a digit. *)
Theorem C37_payload_exactly : forall g bs, hex_array g = Value bs <-> reads_payload g bs.
Proof. exact payload_exactly. Qed.
Print Assumptions C37_payload_exactly.
Example C37_payload_exactly_case : hex_array (ch "0xa1+2-30x") = Value [161; 2; 253; 0] /\ hex_array (ch "g1") = Fails Exception.
Proof. split; vm_compute; reflexivity. Qed.

(* A row is read as a command if and only if it says it in this sense, *)
Theorem C37_row_exactly : forall row c, parse_row row = Value (Some c) <-> reads_row row c.
Proof. exact row_exactly. Qed.
Print Assumptions C37_row_exactly.
Example C37_row_exactly_case : reads_row (fields ex_last) ex_end.
Proof. apply row_exactly. vm_compute. reflexivity. Qed.

(* is refused with a message if and only if it is too short or a burst in it has no
   payload that can be read, *)
Theorem C37_row_refused_exactly : forall row, parse_row row = Value None <-> refused_row row.
Proof. exact row_refused_exactly. Qed.
Print Assumptions C37_row_refused_exactly.
Example C37_row_refused_exactly_case : refused_row (ex_payload "g1") /\ refused_row [ch "1"; ch "ACT"].
Proof. split; apply row_refused_exactly; vm_compute; reflexivity. Qed.

(* and in all other cases, where a field that must be a number is none, ends the
   program: by an exception nobody catches, or with what lies behind the field looked
   at, and this only for a number with a point and an exponent that is missing. *)
Theorem C37_row_dies : forall row f, parse_row row = Fails f -> deadly_row row f.
Proof. exact row_dies. Qed.
Print Assumptions C37_row_dies.
Example C37_row_dies_case : parse_row (ex_number "12a") = Fails Exception /\ parse_row (ex_number "1.e") = Fails UB.
Proof. split; vm_compute; reflexivity. Qed.
Theorem C37_row_deadly : forall row x, In x (number_fields row) -> (forall n, ~ reads_uint x n) -> exists f, parse_row row = Fails f /\ deadly_row row f.
Proof. exact row_deadly. Qed.
Print Assumptions C37_row_deadly.
Example C37_row_deadly_case : In (ch "12a") (number_fields (ex_number "12a")) /\ forall n, ~ reads_uint (ch "12a") n.
Proof. split; [left; reflexivity|]. intros n H. apply uint_exactly in H. vm_compute in H. discriminate H. Qed.

(* So a text gives exactly the commands of its rows, *)
Theorem C37_text_exactly : forall text cs, parse_command_list text = Value (Some cs) <-> exists rows, csv_rows text = Some rows /\ Forall2 reads_row rows cs.
Proof. exact text_exactly. Qed.
Print Assumptions C37_text_exactly.
Example C37_text_exactly_case : parse_command_list (lines_text ex_lines) = Value (Some ex_commands).
Proof. vm_compute. reflexivity. Qed.
(* and the first row that is not read decides how the program ends, on every device. *)
Theorem C37_text_ends : forall p text, exists rows, csv_rows text = Some rows /\
  ((exists cs, Forall2 reads_row rows cs /\ parse_command_list text = Value (Some cs)) \/
   exists pre row post cs, rows = pre ++ row :: post /\ Forall2 reads_row pre cs /\ (refused_row row /\ program p text = Failed \/ exists f, deadly_row row f /\ program p text = Died f)).
Proof. exact text_ends. Qed.
Print Assumptions C37_text_ends.
Example C37_text_ends_case : parse_command_list (lines_text ex_lines ++ ch "70,PRE" ++ [lf]) = Value None /\ parse_command_list (lines_text ex_lines ++ ch "7x,PRE,0,0,0,0,0" ++ [lf]) = Fails Exception.
Proof. split; vm_compute; reflexivity. Qed.

(* The byte order mark of UTF-8 in front of a text changes neither its rows nor its
   commands. *)
Theorem C37_mark : forall text, no_mark text ->
  csv_rows (mark ++ text) = csv_rows text /\ parse_command_list (mark ++ text) = parse_command_list text.
Proof. exact mark_ignored. Qed.
Print Assumptions C37_mark.
Example C37_mark_case : length mark = 3%nat /\ no_mark (lines_text ex_lines) /\ parse_command_list (lines_text ex_lines) = Value (Some ex_commands).
Proof. split; [reflexivity|]. split; [intros r H; vm_compute in H; discriminate H|vm_compute; reflexivity]. Qed.
