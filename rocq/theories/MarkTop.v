(* The commands of a text with a byte order mark. *)
From Coq Require Import NArith List Ascii.
From Verif Require Import Base Bits Command CsvModel CliSpec CliModel MarkProofs.
Import ListNotations.

Theorem mark_ignored text : no_mark text ->
  csv_rows (mark ++ text) = csv_rows text /\ parse_command_list (mark ++ text) = parse_command_list text.
Proof. intro H. unfold parse_command_list. rewrite (mark_skipped text H). split; reflexivity. Qed.
