(* Exactly what is read from a row of a trace: the yardstick for the exact part of C37. *)
From Coq Require Import NArith String List Bool Ascii.
From Verif Require Import Base Bits Command CliSpec.
Import ListNotations.
Local Open Scope N_scope.

(* A field read as the number n: what C37 says of such a field, and besides there is
   one minus at most, and none stands between a digit and a blank. *)
Definition reads_uint (f : list ascii) (n : N) : Prop :=
  like_number f n /\ (count_occ ascii_dec f "-"%char <= 1)%nat /\ ~ (exists a c b, f = a ++ c :: "-"%char :: " "%char :: b /\ digit c).

(* Two characters read as a byte: two hexadecimal digits; a digit and something else,
   which is dropped; a blank or a plus and a digit; a minus and a digit, which is
   the complement. *)
Definition white (c : ascii) : Prop := N_of_ascii c = 32 \/ 9 <= N_of_ascii c <= 13.
Inductive reads_pair : ascii -> ascii -> N -> Prop :=
| pair_both : forall a b x y, hexchar a x -> hexchar b y -> reads_pair a b (16 * x + y)
| pair_first : forall a b x, hexchar a x -> ~ hexdigit b -> reads_pair a b x
| pair_second : forall a b y, white a \/ a = "+"%char -> hexchar b y -> reads_pair a b y
| pair_minus : forall b y, hexchar b y -> reads_pair "-"%char b ((256 - y) mod 256).
Inductive reads_bytes : list ascii -> list N -> Prop :=
| bytes_none : reads_bytes [] []
| bytes_more : forall a b x l bs, reads_pair a b x -> reads_bytes l bs -> reads_bytes (a :: b :: l) (x :: bs).
(* A prefix 0x is left out, once. *)
Definition marked (g f : list ascii) : Prop := g = "0"%char :: "x"%char :: f \/ g = "0"%char :: "X"%char :: f.
Definition reads_payload (g : list ascii) (bs : list N) : Prop :=
  (exists f, marked g f /\ reads_bytes f bs) \/ (forall f, ~ marked g f) /\ reads_bytes g bs.

(* The name of a command, where anything else is NOP. *)
Definition reads_name (f : list ascii) (t : CmdType) : Prop :=
  t <> COUNT /\ string_of_list_ascii f = trace_name t \/ t = NOP /\ forall u, u <> COUNT -> string_of_list_ascii f <> trace_name u.
(* timestamp, command, rank, bank group, bank, row, column, payload. *)
Definition reads_row (row : list (list ascii)) (c : Command) : Prop :=
  exists f0 f1 f2 f3 f4 f5 f6 more, row = f0 :: f1 :: f2 :: f3 :: f4 :: f5 :: f6 :: more /\
    reads_uint f0 (cmd_ts c) /\ reads_uint f2 (cmd_rank c) /\ reads_uint f3 (cmd_bankGroup c) /\ reads_uint f4 (cmd_bank c) /\ reads_uint f5 (cmd_row c) /\ reads_uint f6 (cmd_column c) /\
    reads_name f1 (cmd_type c) /\ cmd_dbank c = (cmd_bank c + 8) mod 16 /\ cmd_sz_bits c = 8 * N.of_nat (length (cmd_data c)) /\
    (carries (cmd_type c) -> exists f7 rest, more = f7 :: rest /\ reads_payload f7 (cmd_data c)) /\ (~ carries (cmd_type c) -> cmd_data c = []).

(* A row that is refused with a message: fewer than seven fields, or a burst without
   a payload that can be read. *)
Definition refused_row (row : list (list ascii)) : Prop :=
  (length row < 7)%nat \/
  exists f0 f1 f2 f3 f4 f5 f6 more t, row = f0 :: f1 :: f2 :: f3 :: f4 :: f5 :: f6 :: more /\
    Forall (fun f => exists n, reads_uint f n) [f0; f2; f3; f4; f5; f6] /\ reads_name f1 t /\ carries t /\
    (forall f7 rest bs, more = f7 :: rest -> ~ reads_payload f7 bs).
(* The fields that must be numbers. *)
Definition number_fields (row : list (list ascii)) : list (list ascii) :=
  match row with f0 :: _ :: f2 :: f3 :: f4 :: f5 :: f6 :: _ => [f0; f2; f3; f4; f5; f6] | _ => [] end.
(* A number with a point and an exponent that is missing: what lies behind the field
   is looked at. *)
Definition overread (f : list ascii) : Prop := In "."%char f /\ exists r, f = r ++ ["e"%char] \/ f = r ++ ["E"%char].
(* A row no outcome is promised for, or that ends the program. *)
Definition deadly_row (row : list (list ascii)) (f : failure) : Prop :=
  exists pre x post, number_fields row = pre ++ x :: post /\ Forall (fun g => exists n, reads_uint g n) pre /\ (forall n, ~ reads_uint x n) /\
    (f = Exception \/ f = UB /\ overread x).
