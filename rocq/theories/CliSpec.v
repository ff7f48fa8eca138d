(* What is expected of the command line program. *)
From Coq Require Import NArith String List Bool Ascii.
From Verif Require Import Base Command.
Import ListNotations.
Local Open Scope N_scope.

(* ---- text ---- *)

Definition blank (c : ascii) : Prop := c = " "%char \/ c = "009"%char.
Definition line_end (c : ascii) : Prop := c = "010"%char \/ c = "013"%char.
(* Text of a field: no comma, no double quote, no line end, no blank at its ends. *)
Definition clean (f : list ascii) : Prop :=
  Forall (fun c => c <> ","%char /\ c <> "034"%char /\ ~ line_end c) f /\
  (forall c r, f = c :: r -> ~ blank c) /\ (forall c r, f = r ++ [c] -> ~ blank c).
(* Text that may stand in double quotes, with commas and ends of lines: it does not
   start with a blank, and behind every blank there is something that is neither
   blank nor double quote. *)
Definition quotable (f : list ascii) : Prop :=
  (forall c r, f = c :: r -> ~ blank c) /\
  (forall a b c, f = a ++ b :: c -> blank b -> Exists (fun x => ~ blank x /\ x <> "034"%char) c).
(* Inside double quotes a double quote is written twice. *)
Definition doubled (f : list ascii) : list ascii := flat_map (fun c => if Ascii.eqb c "034"%char then [c; c] else [c]) f.
(* A field with blanks before and behind it, or one in double quotes. *)
Inductive cell :=
| mkCell (before text behind : list ascii)
| Quoted (text : list ascii).
Definition cell_ok (c : cell) : Prop :=
  match c with
  | mkCell before text behind => Forall blank before /\ clean text /\ Forall blank behind
  | Quoted text => quotable text
  end.
Definition cell_text (c : cell) : list ascii :=
  match c with
  | mkCell before text behind => before ++ text ++ behind
  | Quoted text => "034"%char :: doubled text ++ ["034"%char]
  end.
Definition ce_text (c : cell) : list ascii := match c with mkCell _ text _ => text | Quoted text => text end.
Fixpoint cells_text (l : list cell) : list ascii :=
  match l with
  | [] => []
  | [c] => cell_text c
  | c :: r => cell_text c ++ ","%char :: cells_text r
  end.
(* A line with one or two characters at its end (LF, CR, CR LF, or LF LF: a blank
   line behind it). *)
Record line := mkLine { li_cells : list cell; li_end : list ascii }.
Definition line_ok (l : line) : Prop :=
  (2 <= length (li_cells l))%nat /\ Forall cell_ok (li_cells l) /\ Forall line_end (li_end l) /\ (length (li_end l) = 1 \/ length (li_end l) = 2)%nat.
Definition lines_text (ls : list line) : list ascii := flat_map (fun l => cells_text (li_cells l) ++ li_end l) ls.
Definition fields (l : list cell) : list (list ascii) := map ce_text l.
(* The text does not start with a byte order mark. *)
Definition no_mark (t : list ascii) : Prop := forall r, t <> "239"%char :: "187"%char :: "191"%char :: r.

(* ---- numbers ---- *)

Definition digit (c : ascii) : Prop := 48 <= N_of_ascii c <= 57.
Definition digitb (c : ascii) : bool := (48 <=? N_of_ascii c) && (N_of_ascii c <=? 57).
(* Decimal digits, the highest first. *)
Definition digits_value (l : list ascii) : N := fold_left (fun v c => 10 * v + (N_of_ascii c - 48)) l 0.
Definition decimal (l : list ascii) (n : N) : Prop := l <> [] /\ Forall digit l /\ digits_value l = n.
(* What may be read as a number: the digits of the field, in order and without a
   blank between them, are the number; a minus is accepted with 0 only. *)
Definition like_number (f : list ascii) (n : N) : Prop :=
  decimal (filter digitb f) n /\ n < 2 ^ 63 /\
  Forall (fun c => digit c \/ c = " "%char \/ c = "-"%char) f /\
  (In "-"%char f -> n = 0) /\
  (forall a b, f = a ++ " "%char :: b -> filter digitb a = [] \/ filter digitb b = []).

(* ---- payload ---- *)

Definition hex_lower : list ascii := list_ascii_of_string "0123456789abcdef".
Definition hex_upper : list ascii := list_ascii_of_string "0123456789ABCDEF".
Definition hexchar (c : ascii) (x : N) : Prop :=
  x < 16 /\ (nth_error hex_lower (N.to_nat x) = Some c \/ nth_error hex_upper (N.to_nat x) = Some c).
(* Two characters for every byte, the higher half first, in any case. *)
Inductive prints : list ascii -> list N -> Prop :=
| prints_nil : prints [] []
| prints_byte : forall a x b y l bs, hexchar a x -> hexchar b y -> prints l bs -> prints (a :: b :: l) (16 * x + y :: bs).
Definition prefixed (l : list ascii) : list (list ascii) := [l; "0"%char :: "x"%char :: l; "0"%char :: "X"%char :: l].

(* ---- commands ---- *)

(* The name of a type in a trace. *)
Definition trace_name (t : CmdType) : string :=
  match t with
  | NOP => "NOP" | RD => "RD" | WR => "WR" | RDA => "RDA" | WRA => "WRA" | ACT => "ACT" | PRE => "PRE" | REFB => "REFB" | REFP2B => "REFP2B" | REFDB => "REFDB"
  | PRESB => "PRESB" | REFSB => "REFSB" | PREA => "PREA" | REFA => "REFA" | PDEA => "PDEA" | PDEP => "PDEP" | PDXA => "PDXA" | PDXP => "PDXP"
  | SREFEN => "SREFEN" | SREFEX => "SREFEX" | DSMEN => "DSMEN" | DSMEX => "DSMEX" | END_OF_SIMULATION => "END" | COUNT => ""
  end%string.
Definition carries (t : CmdType) : Prop := t = RD \/ t = RDA \/ t = WR \/ t = WRA.
(* timestamp, command, rank, bank group, bank, row, column, payload. *)
Definition row_says (num : list ascii -> N -> Prop) (row : list (list ascii)) (c : Command) : Prop :=
  exists f0 f1 f2 f3 f4 f5 f6 more, row = f0 :: f1 :: f2 :: f3 :: f4 :: f5 :: f6 :: more /\
    num f0 (cmd_ts c) /\ num f2 (cmd_rank c) /\ num f3 (cmd_bankGroup c) /\ num f4 (cmd_bank c) /\ num f5 (cmd_row c) /\ num f6 (cmd_column c) /\
    cmd_type c <> COUNT /\ string_of_list_ascii f1 = trace_name (cmd_type c) /\
    cmd_dbank c = (cmd_bank c + 8) mod 16 /\ cmd_sz_bits c = 8 * N.of_nat (length (cmd_data c)) /\
    (carries (cmd_type c) -> exists f7 rest f, more = f7 :: rest /\ In f7 (prefixed f) /\ prints f (cmd_data c)) /\
    (~ carries (cmd_type c) -> cmd_data c = []).
(* A row written as it should be. *)
Definition proper : list (list ascii) -> Command -> Prop := row_says (fun f n => decimal f n /\ n < 2 ^ 63).
(* What is known of a row that is accepted: a name that is no command counts as NOP,
   and a payload with other characters than hexadecimal digits is read somehow. *)
Definition hexdigit (c : ascii) : Prop := exists x, hexchar c x.
Definition read_row (row : list (list ascii)) (c : Command) : Prop :=
  exists f0 f1 f2 f3 f4 f5 f6 more, row = f0 :: f1 :: f2 :: f3 :: f4 :: f5 :: f6 :: more /\
    like_number f0 (cmd_ts c) /\ like_number f2 (cmd_rank c) /\ like_number f3 (cmd_bankGroup c) /\ like_number f4 (cmd_bank c) /\
    like_number f5 (cmd_row c) /\ like_number f6 (cmd_column c) /\
    (string_of_list_ascii f1 = trace_name (cmd_type c) \/
     cmd_type c = NOP /\ forall t, t <> COUNT -> string_of_list_ascii f1 <> trace_name t) /\
    cmd_dbank c = (cmd_bank c + 8) mod 16 /\ cmd_sz_bits c = 8 * N.of_nat (length (cmd_data c)) /\
    (carries (cmd_type c) -> exists f7 rest f, more = f7 :: rest /\ In f7 (prefixed f) /\ length f = (2 * length (cmd_data c))%nat /\
                               (Forall hexdigit f -> prints f (cmd_data c))) /\
    (~ carries (cmd_type c) -> cmd_data c = []).
