(* What an interface shows on its data lines, told from the calls alone: the
   yardstick for C45. *)
From Coq Require Import NArith QArith List Bool Arith.
From Verif Require Import Base Command CoreModel Bits WaveSpec ToggleModel ToggleProofs BusModel StatsModel DbiSpec DbiPinSpec FormatSpec InterfaceModel InterfaceSpec.
Import ListNotations.
Local Open Scope N_scope.

(* Inversion exists except for DDR5 and for four-bit DDR4 devices. *)
Definition has_dbi (p : ifspec) : bool :=
  match fi_std p with DDR5 => false | DDR4 => negb (fi_bits p =? 4) | _ => true end.
(* The level the data lines rest at. *)
Definition dq_rests_high (s : standard) : bool := match s with DDR4 | DDR5 => true | _ => false end.

(* The inversion flags.  A byte is inverted when more than half of its bits are
   away from the level at rest.  LPDDR6 decides for pairs of bytes; as in the
   code the flag of a pair looks at its first byte and at the byte before it, as
   that one is sent. *)
Fixpoint flag6 (data : list N) (k : nat) : bool :=
  match k with
  | O => inverts 8 false (nth 0 data 0)
  | S k => let before := consuming 8 false (nth (2 * k + 1) data 0) in
           8 <? (if flag6 data k then 8 - before else before) + consuming 8 false (nth (2 * k + 2) data 0)
  end.
Definition flipped (p : ifspec) (data : list N) (byte : nat) : bool :=
  match fi_std p with LPDDR6 => flag6 data (Nat.div byte 2) | s => inverts 8 (dq_rests_high s) (nth byte data 0) end.

(* Bit k of what is sent for n bits of data: the data, inverted where flagged; in
   LPDDR6 the frame of FormatSpec, last bit first. *)
Definition data_bit (p : ifspec) (dbi : bool) (data : list N) (k : nat) : bool :=
  xorb (dbi && flipped p data (Nat.div k 8)) (payload_bit data k).
Definition wire_bit (p : ifspec) (dbi : bool) (meta : N * N) (data : list N) (n k : nat) : bool :=
  match fi_std p with
  | LPDDR6 =>
      let r := (9 * n / 8 - 1 - k)%nat in
      match shows (Nat.div r 288) (Nat.div (Nat.modulo r 288) 12) (Nat.modulo (Nat.modulo r 288) 12) with
      | Data i => data_bit p dbi data i
      | Meta h i => N.testbit (if Nat.eqb h 0 then fst meta else snd meta) (N.of_nat i)
      | Flag i => dbi && flag6 data i
      end
  | _ => data_bit p dbi data k
  end.
(* The words of a burst, the word of the highest bits first. *)
Definition burst_words (p : ifspec) (dbi : bool) (meta : N * N) (c : Command) : list N :=
  let w := N.to_nat (dq_lines p) in
  let len := Nat.div (N.to_nat (burst_bits p true c)) w in
  map (fun b => word_of w (fun j => wire_bit p dbi meta (cmd_data c) (N.to_nat (cmd_sz_bits c)) ((len - 1 - b) * w + j))) (seq 0 len).

(* A command that sends data in a direction. *)
Definition sends (read : bool) (c : Command) : bool :=
  match transfers (cmd_type c) with
  | Some r => eqb r read && negb (cmd_sz_bits c =? 0) && match cmd_data c with [] => false | _ => true end
  | None => false
  end.
(* What the calls drive onto the data bus of one direction, from the present
   switch of the inversion and the present metadata. *)
Fixpoint data_drives (p : ifspec) (read dbi : bool) (meta : N * N) (xs : list call) : drives :=
  match xs with
  | [] => []
  | Do c :: r => (if sends read c then [(cmd_ts c * fi_rate p, burst_words p dbi meta c)] else []) ++ data_drives p read dbi meta r
  | SetDbi e :: r => data_drives p read (if has_dbi p then e else dbi) meta r
  | SetMeta a b :: r => data_drives p read dbi (a mod 65536, b mod 65536) r
  | _ :: r => data_drives p read dbi meta r
  end.
(* The lengths of the bursts of one direction. *)
Definition burst_lengths (p : ifspec) (read : bool) (cs : list Command) : list toggle_op :=
  flat_map (fun c => match transfers (cmd_type c) with
                     | Some r => if eqb r read then [TLoad (cmd_ts c) (burst_bits p false c)] else []
                     | None => []
                     end) cs.

(* A command that sends data comes with as many bytes as announced and fills at
   least one beat. *)
Definition data_ok (p : ifspec) (c : Command) : Prop :=
  (sends true c || sends false c) = true ->
  cmd_sz_bits c <= 8 * N.of_nat (length (cmd_data c)) /\ Forall (fun v => v < 256) (cmd_data c) /\
  dq_lines p <= burst_bits p true c /\ cmd_ts c * fi_rate p + burst_beats p true c < two64.
(* Nothing has been entered for the data bus yet. *)
Definition data_blank (st : sim_stats) : Prop :=
  ss_readBus st = stats0 /\ ss_writeBus st = stats0 /\ ss_togRead st = stats0 /\ ss_togWrite st = stats0.
