(* What is expected of reading a file in chunks. *)
From Coq Require Import List Bool Ascii Arith.
From Verif Require Import CsvModel CliSpec.
Import ListNotations.

(* Where the rows of a file start when it is read in one piece, and where what
   follows the last complete row starts. *)
Definition starts (text : list ascii) : list nat :=
  match lex_loop (length text) text (mkLexer (bom text) None 0 false false 0 [] []) with
  | Some s => map fst (lx_rows s) ++ [lx_row s]
  | None => []
  end.
(* No row is longer than a chunk, its end included. *)
Definition fits (n : nat) (text : list ascii) : Prop :=
  forall l a b r, starts text ++ [length text] = l ++ a :: b :: r -> b <= a + n.
(* A chunk starts with a row.  None ends between two line end characters. *)
Definition smooth (n : nat) (text : list ascii) : Prop :=
  forall a c d, In a (starts text) -> nth_error text (a + n - 1) = Some c -> nth_error text (a + n) = Some d -> line_end c -> ~ line_end d.
(* No double quote follows another. *)
Definition no_doubled (text : list ascii) : Prop := forall a b, text <> a ++ "034"%char :: "034"%char :: b.
(* A line without double quotes and with one character at its end. *)
Definition simple_line (l : line) : Prop :=
  line_ok l /\ length (li_end l) = 1 /\ Forall (fun c => match c with mkCell _ _ _ => True | Quoted _ => False end) (li_cells l).
Definition line_length (l : line) : nat := length (cells_text (li_cells l) ++ li_end l).
(* Characters that end no line. *)
Definition endless (t : list ascii) : Prop := Forall (fun c => ~ line_end c) t.
(* The last row of the text is complete: nothing follows it. *)
Definition complete (text : list ascii) : Prop := last (starts text) 0 = length text.
