(* Concrete traces. *)
From Coq Require Import NArith QArith String List Bool Ascii Arith Lia.
From Verif Require Import Base Command CoreModel Bits HistorySpec StatsModel EnergyModel IfEnergyModel InterfaceModel DramModel DramSpec DramExamples CsvModel CliModel CliSpec CsvProofs CliProofs.
Import ListNotations.
Local Open Scope N_scope.

(* ---- checking the conditions by computing ---- *)

Definition blankb (c : ascii) : bool := Ascii.eqb c " " || Ascii.eqb c "009".
Definition cleanb (f : list ascii) : bool :=
  forallb (plain false) f && match f with c :: _ => negb (blankb c) | [] => true end && match rev f with c :: _ => negb (blankb c) | [] => true end.
Lemma cleanb_ok f : cleanb f = true -> clean f.
Proof.
  unfold cleanb. rewrite !andb_true_iff. intros [[A B] C]. split; [|split].
  - rewrite forallb_forall in A. apply Forall_forall. intros c Hc. apply flag_plain. specialize (A c Hc). unfold plain, compound_flag in A. destruct (parse_flag c); congruence.
  - intros c r -> K. apply ws_blank in K. unfold ws_flag in K. unfold blankb in B. rewrite K in B. discriminate.
  - intros c r E K. apply ws_blank in K. unfold ws_flag in K. rewrite E, rev_app_distr in C. cbn in C. unfold blankb in C. rewrite K in C. discriminate.
Qed.
Fixpoint settledb (f : list ascii) : bool :=
  match f with
  | [] => true
  | b :: c => (negb (blankb b) || existsb (fun x => negb (blankb x) && negb (Ascii.eqb x "034")) c) && settledb c
  end.
Lemma settledb_ok f : settledb f = true -> settled f.
Proof.
  intros H a. revert f H. induction a as [|x a IH]; intros f H b c -> B; cbn [app settledb] in H; apply andb_true_iff in H; destruct H as [H1 H2].
  - apply ws_blank in B. unfold ws_flag in B. unfold blankb at 1 in H1. rewrite B in H1. cbn [negb orb] in H1.
    apply existsb_exists in H1. destruct H1 as (x & I & E). apply andb_true_iff in E. destruct E as [E1 E2]. apply Exists_exists. exists x. split; [exact I|]. split.
    + intros K. apply ws_blank in K. unfold ws_flag in K. unfold blankb in E1. rewrite K in E1. discriminate.
    + intros ->. cbn in E2. discriminate.
  - eapply IH; [exact H2|reflexivity|exact B].
Qed.
Definition cellb (c : cell) : bool :=
  match c with
  | mkCell before text behind => forallb blankb before && cleanb text && forallb blankb behind
  | Quoted text => match text with c :: _ => negb (blankb c) | [] => true end && settledb text
  end.
Lemma cellb_ok c : cellb c = true -> cell_ok c.
Proof.
  destruct c as [be te bh|te]; cbn [cellb cell_ok].
  - rewrite !andb_true_iff, !forallb_forall. intros [[A B] C].
    split; [|split; [apply cleanb_ok; exact B|]]; apply Forall_forall; intros x Hx; apply ws_blank; auto.
  - rewrite andb_true_iff. intros [A B]. split; [|apply settledb_ok; exact B].
    intros c r -> K. apply ws_blank in K. unfold ws_flag in K. unfold blankb in A. rewrite K in A. discriminate.
Qed.
Lemma cells_check l : forallb cellb l = true -> Forall cell_ok l.
Proof. rewrite forallb_forall. intros H. apply Forall_forall. intros c Hc. apply cellb_ok. auto. Qed.
Lemma decimal_check f n : forallb digitb f = true -> f <> [] -> digits_value f = n -> decimal f n.
Proof. intros A B C. split; [exact B|]. split; [|exact C]. rewrite forallb_forall in A. apply Forall_forall. intros c Hc. apply digitb_spec. auto. Qed.
Lemma prints_check l bs : hex_bytes l = Value bs -> Nat.even (length l) = true -> forallb (fun c => match hex_digit c with Some _ => true | None => false end) l = true -> prints l bs.
Proof.
  intros A B C. apply (bytes_inv _ l bs (le_n _) A B). rewrite forallb_forall in C. apply Forall_forall. intros c Hc.
  specialize (C c Hc). destruct (hex_digit c) as [x|] eqn:E; [|discriminate]. exists x. apply hex_digit_char. exact E.
Qed.

(* ---- a trace ---- *)

Definition ch (s : string) : list ascii := list_ascii_of_string s.
Definition bare (s : string) : cell := mkCell [] (ch s) [].
Definition padded (s : string) : cell := mkCell (ch "  ") (ch s) ["009"%char; " "%char].
Definition ex_lines : list line :=
  [mkLine (map bare ["0"; "ACT"; "0"; "0"; "0"; "3"; "0"]%string) [lf];
   mkLine (map padded ["20"; "RD"; "0"; "0"; "0"; "3"; "9"; "0xDEadBEef01020304"]%string) [cr; lf];
   mkLine (map bare ["60"; "WRA"; "0"; "0"; "0"; "3"; "9"; "00000000ffffffff"; "ignored"]%string) [lf; lf]].
Definition ex_last : list cell := map padded ["200"; "END"; "0"; "0"; "0"; "0"; "0"]%string.
Definition ex_commands : list Command :=
  [mkCommand 0 ACT 0 0 0 3 0 8 [] 0;
   mkCommand 20 RD 0 0 0 3 9 8 [222; 173; 190; 239; 1; 2; 3; 4] 64;
   mkCommand 60 WRA 0 0 0 3 9 8 [0; 0; 0; 0; 255; 255; 255; 255] 64].
Definition ex_end : Command := mkCommand 200 END_OF_SIMULATION 0 0 0 0 0 8 [] 0.

Lemma ex_lines_ok : Forall line_ok ex_lines.
Proof.
  assert (H : Forall (fun l => (2 <= length (li_cells l))%nat /\ forallb cellb (li_cells l) = true /\ Forall line_end (li_end l) /\ (length (li_end l) = 1 \/ length (li_end l) = 2)%nat) ex_lines).
  { apply Forall_cons; [|apply Forall_cons; [|apply Forall_cons; [|apply Forall_nil]]];
      (split; [cbn; lia|]; split; [vm_compute; reflexivity|]; split; [repeat (apply Forall_cons; [unfold line_end, lf, cr; auto|]); apply Forall_nil|cbn; auto]). }
  eapply Forall_impl; [|exact H]. intros l (A & B & C & D). split; [exact A|]. split; [apply cells_check; exact B|]. auto.
Qed.
Lemma ex_last_ok : (2 <= length ex_last)%nat /\ Forall cell_ok ex_last /\ last (fields ex_last) [] <> [].
Proof. split; [cbn; lia|]. split; [apply cells_check; vm_compute; reflexivity|vm_compute; discriminate]. Qed.
Lemma ex_unmarked : no_mark (lines_text ex_lines) /\ no_mark (lines_text ex_lines ++ cells_text ex_last).
Proof. split; intros r H; vm_compute in H; discriminate H. Qed.

Ltac number := split; [apply decimal_check; [reflexivity|discriminate|reflexivity]|reflexivity].
Ltac proper_row :=
  do 8 eexists; split; [reflexivity|]; do 6 (split; [number|]); split; [discriminate|]; split; [reflexivity|]; split; [reflexivity|]; split; [reflexivity|].
Lemma ex_proper : Forall2 (fun l c => proper (fields (li_cells l)) c) ex_lines ex_commands.
Proof.
  constructor; [|constructor; [|constructor; [|constructor]]].
  - proper_row. split; [intros [H|[H|[H|H]]]; discriminate H|reflexivity].
  - proper_row. split; [|intros H; exfalso; apply H; left; reflexivity].
    intros _. exists (ch "0xDEadBEef01020304"), [], (ch "DEadBEef01020304"). split; [reflexivity|]. split; [right; left; reflexivity|]. apply prints_check; reflexivity.
  - proper_row. split; [|intros H; exfalso; apply H; right; right; right; reflexivity].
    intros _. exists (ch "00000000ffffffff"), [ch "ignored"], (ch "00000000ffffffff"). split; [reflexivity|]. split; [left; reflexivity|]. apply prints_check; reflexivity.
Qed.
Lemma ex_end_proper : proper (fields ex_last) ex_end.
Proof. proper_row. split; [intros [H|[H|[H|H]]]; discriminate H|reflexivity]. Qed.

(* The text itself. *)
Lemma ex_text : string_of_list_ascii (firstn 51 (lines_text ex_lines)) =
  ("0,ACT,0,0,0,3,0" ++ String "010" ("  20" ++ String "009" (" ,  RD" ++ String "009" (" ,  0" ++ String "009" (" ,  0" ++ String "009" (" ,  0" ++ String "009" " ,  3"))))))%string.
Proof. vm_compute. reflexivity. Qed.

(* The whole program on it. *)
Definition printed (x : program_end) : bool := match x with Printed (Exactly _) (Exactly _) (Exactly _) => true | _ => false end.
Lemma ex_program : Forall (fun s => printed (program (ex_dspec s) (lines_text ex_lines ++ cells_text ex_last)) = true) [DDR4; DDR5].
Proof. repeat constructor; vm_compute; reflexivity. Qed.
Lemma ex_timed : nondecreasing 0 (map cmd_ts (ex_commands ++ [ex_end])) /\ final_time 0 (map cmd_ts (ex_commands ++ [ex_end])) = 200.
Proof. split; [vm_compute; repeat split; discriminate|reflexivity]. Qed.

(* ---- lines that are read as something else ---- *)

Definition ex_number (f : string) : list (list ascii) := map ch [f; "ACT"; "0"; "0"; "0"; "0"; "0"]%string.
Definition ex_name (f : string) : list (list ascii) := map ch ["5"; f; "0"; "0"; "0"; "0"; "0"; "FF"]%string.
Definition ex_payload (f : string) : list (list ascii) := map ch ["5"; "WR"; "0"; "0"; "0"; "0"; "0"; f]%string.
Lemma name_lost : exists row c, parse_row row = Value (Some c) /\ cmd_type c = NOP /\ cmd_data c = [] /\
  nth_error row 1 = Some (ch "rd") /\ nth_error row 7 = Some (ch "FF") /\ (forall t, string_of_list_ascii (ch "rd") <> trace_name t).
Proof. exists (ex_name "rd"). eexists. split; [vm_compute; reflexivity|]. repeat (split; [reflexivity|]). intros []; discriminate. Qed.
Lemma payload_lost : exists row row' c c', parse_row row = Value (Some c) /\ parse_row row' = Value (Some c') /\ cmd_data c = [1] /\ cmd_data c' = [255] /\
  nth_error row 7 = Some (ch "1g") /\ nth_error row' 7 = Some (ch "-1") /\ ~ Forall hexdigit (ch "1g") /\ ~ Forall hexdigit (ch "-1").
Proof.
  exists (ex_payload "1g"), (ex_payload "-1"). do 2 eexists. split; [vm_compute; reflexivity|]. split; [vm_compute; reflexivity|]. repeat (split; [reflexivity|]).
  split; intros H; inversion H as [|x y Hx Hy]; subst.
  - inversion Hy as [|x y [v Hv] _]; subst. apply hex_digit_char in Hv. discriminate Hv.
  - destruct Hx as [v Hv]. apply hex_digit_char in Hv. discriminate Hv.
Qed.
Definition big : string := "9223372036854775808".
Lemma big_lost : decimal (ch big) (2 ^ 63) /\ 2 ^ 63 < two64 /\ parse_row (ex_number big) = Fails Exception /\
  forall p, program p (flat_map (fun f => f ++ [comma]) (ex_number big)) = Died Exception.
Proof.
  split; [apply decimal_check; [reflexivity|discriminate|reflexivity]|]. split; [reflexivity|]. split; [vm_compute; reflexivity|].
  intros p. unfold program.
  assert (parse_command_list (flat_map (fun f => f ++ [comma]) (ex_number big)) = Fails Exception) as -> by (vm_compute; reflexivity). reflexivity.
Qed.

(* ---- double quotes ---- *)

Definition ex_quoted : list line :=
  [mkLine (Quoted (ch "70") :: Quoted (ch "PREA") :: map bare ["0"; "0"; "0"; "0"; "0"]%string ++ [Quoted []; Quoted (ch "a, ""b"" and c" ++ [lf; dq])]) [lf];
   mkLine [bare "80"; Quoted (ch "END"); bare "0"; bare "0"; padded "0"; bare "0"; Quoted (ch "0")] [lf]].
Lemma ex_quoted_ok : Forall line_ok ex_quoted.
Proof.
  assert (H : Forall (fun l => (2 <= length (li_cells l))%nat /\ forallb cellb (li_cells l) = true /\ Forall line_end (li_end l) /\ (length (li_end l) = 1 \/ length (li_end l) = 2)%nat) ex_quoted).
  { apply Forall_cons; [|apply Forall_cons; [|apply Forall_nil]];
      (split; [cbn; lia|]; split; [vm_compute; reflexivity|]; split; [repeat (apply Forall_cons; [unfold line_end, lf, cr; auto|]); apply Forall_nil|cbn; auto]). }
  eapply Forall_impl; [|exact H]. intros l (A & B & C & D). split; [exact A|]. split; [apply cells_check; exact B|]. auto.
Qed.
Lemma ex_quoted_text : no_mark (lines_text ex_quoted) /\
  string_of_list_ascii (lines_text ex_quoted) =
    ("""70"",""PREA"",0,0,0,0,0,"""",""a, """"b"""" and c" ++ String lf (String dq (String dq (String dq (String lf "80,""END"",0,0,  0" ++ String "009" (" ,0,""0""" ++ String lf ""))))))%string.
Proof. split; [intros r H; vm_compute in H; discriminate H|vm_compute; reflexivity]. Qed.
Lemma ex_quoted_trace : Forall2 (fun l c => proper (fields (li_cells l)) c) ex_quoted [mkCommand 70 PREA 0 0 0 0 0 8 [] 0; mkCommand 80 END_OF_SIMULATION 0 0 0 0 0 8 [] 0].
Proof.
  constructor; [|constructor; [|constructor]]; proper_row; (split; [intros [H|[H|[H|H]]]; discriminate H|reflexivity]).
Qed.

(* A blank before the opening quote leaves the quote in the field; a quote behind two
   blanks at the end of the text is lost. *)
Lemma quotes_lost :
  csv_rows (ch "1, ""RD""" ++ [lf]) = Some [[ch "1"; dq :: ch "RD"]] /\
  csv_rows (ch "1," ++ cell_text (Quoted (ch "a  """)) ++ [lf]) = Some [[ch "1"; ch "a  "]] /\
  csv_rows (ch "1,""RD"" ,2" ++ [lf]) = Some [[ch "1"; ch "RD"" ,2" ++ [lf]]].
Proof. split; [vm_compute; reflexivity|]. split; vm_compute; reflexivity. Qed.
