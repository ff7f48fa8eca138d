(* C37 and C49: the command line program. *)
From Coq Require Import NArith QArith String List Bool Ascii Arith.
From Verif Require Import Base Command CoreModel Bits HistorySpec StatsModel EnergyModel EnergySpec EnergyExamples IfEnergyModel InterfaceModel InterfaceSpec DramModel DramSpec DramExamples
  CsvModel CliModel CliSpec CsvProofs CliProofs CliTop CliExamples.
Import ListNotations.
Local Open Scope N_scope.

(* C37: the reader ends on every text. *)
Theorem C37_reading_ends : forall text, exists rows, csv_rows text = Some rows.
Proof. exact reading_ends. Qed.
Print Assumptions C37_reading_ends.

(* Lines are split into exactly their fields, without the blanks around them,
   whatever the blanks and the ends of the lines; a field in double quotes is read as
   what was quoted; the last line may lack its end. *)
Theorem C37_lines : forall ls, Forall line_ok ls -> no_mark (lines_text ls) -> csv_rows (lines_text ls) = Some (map (fun l => fields (li_cells l)) ls).
Proof. exact lines_read. Qed.
Print Assumptions C37_lines.
Example C37_lines_case : Forall line_ok ex_lines /\ no_mark (lines_text ex_lines) /\ length (lines_text ex_lines) = 127%nat.
Proof. split; [exact ex_lines_ok|]. split; [apply ex_unmarked|vm_compute; reflexivity]. Qed.
Example C37_lines_quoted_case : Forall line_ok ex_quoted /\ no_mark (lines_text ex_quoted) /\
  Forall2 (fun l c => proper (fields (li_cells l)) c) ex_quoted [mkCommand 70 PREA 0 0 0 0 0 8 [] 0; mkCommand 80 END_OF_SIMULATION 0 0 0 0 0 8 [] 0].
Proof. split; [exact ex_quoted_ok|]. split; [apply ex_quoted_text|exact ex_quoted_trace]. Qed.
Theorem C37_open_line : forall ls cells, Forall line_ok ls -> (2 <= length cells)%nat -> Forall cell_ok cells -> last (fields cells) [] <> [] ->
  no_mark (lines_text ls ++ cells_text cells) ->
  csv_rows (lines_text ls ++ cells_text cells) = Some (map (fun l => fields (li_cells l)) ls ++ [fields cells]).
Proof. exact open_line_read. Qed.
Print Assumptions C37_open_line.
Example C37_open_line_case : (2 <= length ex_last)%nat /\ Forall cell_ok ex_last /\ last (fields ex_last) [] <> [].
Proof. exact ex_last_ok. Qed.

(* Decimal digits are read as the number they denote, below 2^63; what else is
   accepted as a number. *)
Theorem C37_number : forall f n, decimal f n -> get_uint f = if n <? 2 ^ 63 then Value n else Fails Exception.
Proof. exact decimal_read. Qed.
Print Assumptions C37_number.
Example C37_number_case : decimal (ch "0018446") 18446 /\ decimal (ch big) (2 ^ 63).
Proof. split; (apply decimal_check; [reflexivity|discriminate|reflexivity]). Qed.
Theorem C37_number_accepted : forall f n, get_uint f = Value n -> like_number f n.
Proof. exact uint_sound. Qed.
Print Assumptions C37_number_accepted.
Example C37_number_accepted_case : get_uint (ch " 12 ") = Value 12 /\ get_uint (ch "0-0") = Value 0 /\ get_uint (ch "1 2") = Fails Exception /\ get_uint (ch "-3") = Fails Exception /\
  get_uint (ch "1e3") = Fails Exception /\ get_uint (ch "0x10") = Fails Exception.
Proof. repeat (split; [vm_compute; reflexivity|]). vm_compute. reflexivity. Qed.

(* A payload printed in hexadecimal, in any case and with or without prefix, is read
   as its bytes, and digits that are read were printed from what was read. *)
Theorem C37_payload : forall f bs g, prints f bs -> In g (prefixed f) -> hex_array g = Value bs.
Proof. exact payload_read. Qed.
Print Assumptions C37_payload.
Example C37_payload_case : prints (ch "00fF7a") [0; 255; 122].
Proof. apply prints_check; reflexivity. Qed.
Theorem C37_payload_accepted : forall g bs, hex_array g = Value bs ->
  exists f, In g (prefixed f) /\ length f = (2 * length bs)%nat /\ (Forall hexdigit f -> prints f bs).
Proof. exact payload_inv. Qed.
Print Assumptions C37_payload_accepted.
Example C37_payload_accepted_case : hex_array (ch "0Xab01") = Value [171; 1].
Proof. reflexivity. Qed.
Theorem C37_payload_refused : forall f, Nat.odd (length f) = true -> hex_array f = Fails Exception.
Proof. exact odd_payload_refused. Qed.
Print Assumptions C37_payload_refused.
Example C37_payload_refused_case : Nat.odd (length (ch "0xabc")) = true.
Proof. reflexivity. Qed.

(* A proper row is the command it says; a row that is accepted says the command up
   to unknown names and stray characters in the payload. *)
Theorem C37_row : forall row c, proper row c -> parse_row row = Value (Some c).
Proof. exact proper_read. Qed.
Print Assumptions C37_row.
Example C37_row_case : proper (fields ex_last) ex_end.
Proof. exact ex_end_proper. Qed.
Theorem C37_row_accepted_partial : forall row c, parse_row row = Value (Some c) -> read_row row c.
Proof. exact accepted_read. Qed.
Print Assumptions C37_row_accepted_partial.
Example C37_row_accepted_partial_case : exists c, parse_row (ex_payload "ff00") = Value (Some c) /\ cmd_data c = [255; 0] /\ cmd_sz_bits c = 16.
Proof. eexists. split; [vm_compute; reflexivity|]. split; reflexivity. Qed.
Theorem C37_row_refused : forall rows row more cs, Forall2 proper rows cs -> (length row < 7)%nat -> parse_rows (rows ++ row :: more) = Value None.
Proof. exact bad_row_refused. Qed.
Print Assumptions C37_row_refused.
Example C37_row_refused_case : Forall2 proper [fields ex_last] [ex_end].
Proof. constructor; [exact ex_end_proper|constructor]. Qed.

(* A text of proper lines gives exactly the commands of its lines, in their order. *)
Theorem C37_trace : forall ls cs, Forall line_ok ls -> no_mark (lines_text ls) -> Forall2 (fun l c => proper (fields (li_cells l)) c) ls cs ->
  parse_command_list (lines_text ls) = Value (Some cs).
Proof. exact trace_read. Qed.
Print Assumptions C37_trace.
Example C37_trace_case : Forall2 (fun l c => proper (fields (li_cells l)) c) ex_lines ex_commands.
Proof. exact ex_proper. Qed.
Theorem C37_open_trace : forall ls cs cells c, Forall line_ok ls -> Forall cell_ok cells -> no_mark (lines_text ls ++ cells_text cells) -> last (fields cells) [] <> [] ->
  Forall2 (fun l c => proper (fields (li_cells l)) c) ls cs -> proper (fields cells) c ->
  parse_command_list (lines_text ls ++ cells_text cells) = Value (Some (cs ++ [c])).
Proof. exact open_trace_read. Qed.
Print Assumptions C37_open_trace.
Example C37_open_trace_case : no_mark (lines_text ex_lines ++ cells_text ex_last) /\ parse_command_list (lines_text ex_lines ++ cells_text ex_last) = Value (Some (ex_commands ++ [ex_end])).
Proof. split; [apply ex_unmarked|vm_compute; reflexivity]. Qed.

(* Lines silently read as another command: a name that is none becomes NOP and
   loses its payload; other characters in a payload are dropped or taken as a sign.
   A timestamp that fits its type ends the program by an exception. *)
Theorem C37_name_refuted : exists row c, parse_row row = Value (Some c) /\ cmd_type c = NOP /\ cmd_data c = [] /\
  nth_error row 1 = Some (ch "rd") /\ nth_error row 7 = Some (ch "FF") /\ (forall t, string_of_list_ascii (ch "rd") <> trace_name t).
Proof. exact name_lost. Qed.
Print Assumptions C37_name_refuted.
Theorem C37_payload_refuted : exists row row' c c', parse_row row = Value (Some c) /\ parse_row row' = Value (Some c') /\ cmd_data c = [1] /\ cmd_data c' = [255] /\
  nth_error row 7 = Some (ch "1g") /\ nth_error row' 7 = Some (ch "-1") /\ ~ Forall hexdigit (ch "1g") /\ ~ Forall hexdigit (ch "-1").
Proof. exact payload_lost. Qed.
Print Assumptions C37_payload_refuted.
Theorem C37_timestamp_refuted : decimal (ch big) (2 ^ 63) /\ 2 ^ 63 < two64 /\ parse_row (ex_number big) = Fails Exception /\
  forall p, program p (flat_map (fun f => f ++ [comma]) (ex_number big)) = Died Exception.
Proof. exact big_lost. Qed.
Print Assumptions C37_timestamp_refuted.

(* Double quotes with blanks: a blank before the opening quote leaves the quote in
   the field, a quote behind two blanks at the end of the quoted text is lost, and a
   blank behind the closing quote makes the rest of the line part of the field. *)
Theorem C37_quotes_refuted :
  csv_rows (ch "1, ""RD""" ++ [lf]) = Some [[ch "1"; "034"%char :: ch "RD"]] /\
  csv_rows (ch "1," ++ cell_text (Quoted (ch "a  """)) ++ [lf]) = Some [[ch "1"; ch "a  "]] /\
  csv_rows (ch "1,""RD"" ,2" ++ [lf]) = Some [[ch "1"; ch "RD"" ,2" ++ [lf]]].
Proof. exact quotes_lost. Qed.
Print Assumptions C37_quotes_refuted.

(* C49: after commands in order of time the time of the result is that of the last
   one, and asking for the core energy does not move it: both energies come from one
   set of statistics. *)
Theorem C49_time : forall p cs d0 d, dram_new p = Value d0 -> uses_run p (map Both cs) d0 = Returned d -> nondecreasing 0 (map cmd_ts cs) ->
  dram_last_time d = final_time 0 (map cmd_ts cs).
Proof. exact last_time_of_commands. Qed.
Print Assumptions C49_time.
Theorem C49_one_query : forall p cs d0 d d2 a b q, dram_new p = Value d0 -> uses_run p (map Both cs) d0 = Returned d -> nondecreasing 0 (map cmd_ts cs) ->
  (make_result p d = Returned (d2, (a, b, q)) <->
   exists st, dram_window p (final_time 0 (map cmd_ts cs)) d = Returned (d2, st) /\ a = calc_core_stats p st /\ b = calc_interface_stats p st /\ q = getTotalEnergy a b).
Proof. exact result_of_one_query. Qed.
Print Assumptions C49_one_query.

(* The program prints energies exactly when a core alone and an interface alone run
   the commands of the trace, and then those of their statistics at the time of the
   last command. *)
Theorem C49_program : forall p text cs a b q, parse_command_list text = Value (Some cs) -> views_agree p -> nondecreasing 0 (map cmd_ts cs) ->
  let T := final_time 0 (map cmd_ts cs) in
  (program p text = Printed a b q <->
   exists s i0 i si, run_core (dp_core p) cs (core_new (dp_core p)) = Ok s /\
     iface_new (dp_if p) (dp_sim p) = Value i0 /\ calls_run (map Do cs) i0 = Value i /\ if_window i T sim_stats0 = Value si /\
     a = calc_energy (dp_ce p) (fill_core (snd (window_stats (dp_core p) T s))) /\ b = calculateEnergy (dp_ie p) si /\ q = getTotalEnergy a b).
Proof. exact program_result. Qed.
Print Assumptions C49_program.
Example C49_program_case :
  parse_command_list (lines_text ex_lines ++ cells_text ex_last) = Value (Some (ex_commands ++ [ex_end])) /\
  nondecreasing 0 (map cmd_ts (ex_commands ++ [ex_end])) /\ final_time 0 (map cmd_ts (ex_commands ++ [ex_end])) = 200 /\
  Forall (fun s => views_agree (ex_dspec s) /\ printed (program (ex_dspec s) (lines_text ex_lines ++ cells_text ex_last)) = true) [DDR4; DDR5].
Proof.
  split; [vm_compute; reflexivity|]. split; [apply ex_timed|]. split; [apply ex_timed|].
  constructor; [|constructor; [|constructor]]; (split; [apply ex_views|]); pose proof ex_program as H.
  - inversion H. assumption.
  - inversion H as [|x y _ H1]. inversion H1. assumption.
Qed.

(* Energies are printed for commands only: every line of the trace was read as one;
   a line with too few fields ends the program with a message, whatever follows. *)
Theorem C49_printed_lines : forall p ls a b q, Forall line_ok ls -> no_mark (lines_text ls) -> program p (lines_text ls) = Printed a b q ->
  exists cs, Forall2 (fun l c => read_row (fields (li_cells l)) c) ls cs /\ parse_command_list (lines_text ls) = Value (Some cs).
Proof. exact printed_lines. Qed.
Print Assumptions C49_printed_lines.
Example C49_printed_lines_case : Forall line_ok ex_lines /\ no_mark (lines_text ex_lines) /\ printed (program (ex_dspec DDR4) (lines_text ex_lines)) = true.
Proof. split; [exact ex_lines_ok|]. split; [apply ex_unmarked|vm_compute; reflexivity]. Qed.
Theorem C49_short_line : forall p ls cs l more, Forall line_ok (ls ++ l :: more) -> no_mark (lines_text (ls ++ l :: more)) ->
  Forall2 (fun l c => proper (fields (li_cells l)) c) ls cs -> (length (li_cells l) < 7)%nat -> program p (lines_text (ls ++ l :: more)) = Failed.
Proof. exact short_line_fails. Qed.
Print Assumptions C49_short_line.
Definition short_line : line := mkLine [mkCell [] (ch "7") []; mkCell [] (ch "PRE") []] ["010"%char].
Example C49_short_line_case : Forall line_ok (ex_lines ++ [short_line]) /\ no_mark (lines_text (ex_lines ++ [short_line])) /\
  Forall2 (fun l c => proper (fields (li_cells l)) c) ex_lines ex_commands /\ (length (li_cells short_line) < 7)%nat.
Proof.
  assert (line_ok short_line) as K.
  { split; [repeat constructor|]. split; [|split; [repeat constructor|left; reflexivity]].
    repeat constructor; try discriminate; try (intros [H|H]; discriminate H); intros c r H.
    all: try (injection H as <- _; intros [X|X]; discriminate X).
    - destruct r as [|x [|]]; try discriminate H. injection H as <-. intros [X|X]; discriminate X.
    - destruct r as [|x [|y [|z [|]]]]; try discriminate H. injection H as <- <- <-. intros [X|X]; discriminate X. }
  split; [apply Forall_app; split; [exact ex_lines_ok|constructor; [exact K|constructor]]|].
  split; [intros r H; vm_compute in H; discriminate H|]. split; [exact ex_proper|]. repeat constructor.
Qed.

(* Every entry of the printed array carries the rank, device and bank whose slot it
   is (C27). *)
Theorem C49_labels : forall p st e, calc_energy p st = Exactly e -> covers p st ->
  exists l, json_result p e = Some l /\ length l = (es_ranks p * es_devices p * es_banks p)%nat /\
    forall r d b, (r < es_ranks p)%nat -> (d < es_devices p)%nat -> (b < es_banks p)%nat ->
      exists lab x, nth_error l (slot p r d b) = Some (lab, x) /\ nth_error (en_bank e) (slot p r d b) = Some x /\ lb_rank lab = r /\ lb_device lab = d /\ lb_bank lab = b.
Proof. exact json_labels. Qed.
Print Assumptions C49_labels.
Example C49_labels_case : covers ex_ddr4 (ex_stats 1) /\ map (fun l => (lb_rank l, lb_device l, lb_bank l)) (labels 2 2 2) =
  [(0, 0, 0); (0, 0, 1); (0, 1, 0); (0, 1, 1); (1, 0, 0); (1, 0, 1); (1, 1, 0); (1, 1, 1)]%nat.
Proof. split; [apply ex_covers|reflexivity]. Qed.
