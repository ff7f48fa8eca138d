(* What the parts of a memory look at: for each part of the statistics the events it
   depends on, and nothing else. *)
From Coq Require Import NArith List Bool.
From Verif Require Import Base Command CoreModel Bits HistorySpec StatsModel StatsSpec PatternSpec InterfaceModel InterfaceSpec DramModel DramSpec.
Import ListNotations.
Local Open Scope N_scope.

(* The values of a partial function, in order. *)
Definition seen {A B} (f : A -> option B) (l : list A) : list B := flat_map (fun x => match f x with Some y => [y] | None => [] end) l.

(* The core: time, type, rank and banks; no group, row, column or data. *)
Definition core_view (c : Command) : N * CmdType * N * N * N := (cmd_ts c, cmd_type c, cmd_rank c, cmd_bank c, cmd_dbank c).
(* Commands and queries of a core. *)
Definition op_view (o : op) : N * option (N * CmdType * N * N * N) := match o with Cmd c => (cmd_ts c, Some (core_view c)) | Query t => (t, None) end.

(* The data buses and inversion lines: the bursts with what they carry, the end, and
   the settings; no address. *)
Inductive data_event := Burst (read : bool) (t bits : N) (data : list N) | End (t : N) | Inversion (e : bool) | Metadata (a b : N).
Definition data_view (x : call) : option data_event :=
  match x with
  | Do c => match transfers (cmd_type c) with
            | Some read => Some (Burst read (cmd_ts c) (cmd_sz_bits c) (cmd_data c))
            | None => match cmd_type c with END_OF_SIMULATION => Some (End (cmd_ts c)) | _ => None end
            end
  | SetDbi e => Some (Inversion e)
  | SetMeta a b => Some (Metadata a b)
  | _ => None
  end.
(* The estimates of toggling mode: when bursts start and how many bits they have. *)
Definition burst_view (x : call) : option (bool * N * N) :=
  match x with
  | Do c => match transfers (cmd_type c) with Some read => Some (read, cmd_ts c, cmd_sz_bits c) | None => None end
  | _ => None
  end.
(* Strobes and the clocks that follow the bursts: also when the interface is switched. *)
Inductive strobe_event := Pulse (read : bool) (t bits : N) | On (t : N) | Off (t : N).
Definition strobe_view (x : call) : option strobe_event :=
  match x with
  | Do c => match transfers (cmd_type c) with Some read => Some (Pulse read (cmd_ts c) (cmd_sz_bits c)) | None => None end
  | Enable t => Some (On t)
  | Disable t => Some (Off t)
  | _ => None
  end.
(* The clock: only when the interface is switched. *)
Definition switch_view (x : call) : option strobe_event := match x with Enable t => Some (On t) | Disable t => Some (Off t) | _ => None end.
(* The command bus: the commands sent over it with their addresses, for bursts their
   size, no payload. *)
Inductive bus_event := Sent (t : N) (ty : CmdType) (bank group rank row column : N) (bits : N) | Parity (e : bool).
Definition command_view (s : standard) (x : call) : option bus_event :=
  match x with
  | Do c => if silent s (cmd_type c) then None
            else Some (Sent (cmd_ts c) (cmd_type c) (cmd_bank c) (cmd_bankGroup c) (cmd_rank c) (cmd_row c) (cmd_column c)
                            (match transfers (cmd_type c) with Some _ => cmd_sz_bits c | None => 0 end))
  | SetParity e => Some (Parity e)
  | _ => None
  end.
(* Preambles and postambles: the bursts with their rank. *)
Definition amble_view (x : call) : option (bool * N * N * N) :=
  match x with
  | Do c => match transfers (cmd_type c) with Some read => Some (read, cmd_ts c, cmd_sz_bits c, cmd_rank c) | None => None end
  | _ => None
  end.

(* ---- two ways of using a memory ---- *)

(* The same commands except for what they carry: the number of bits is the same. *)
Definition but_payload (c d : Command) : Prop :=
  cmd_ts c = cmd_ts d /\ cmd_type c = cmd_type d /\ cmd_bank c = cmd_bank d /\ cmd_bankGroup c = cmd_bankGroup d /\ cmd_rank c = cmd_rank d /\ cmd_row c = cmd_row d /\
  cmd_column c = cmd_column d /\ cmd_dbank c = cmd_dbank d /\ cmd_sz_bits c = cmd_sz_bits d.
(* The same commands except for bank group, row and column. *)
Definition but_place (c d : Command) : Prop :=
  cmd_ts c = cmd_ts d /\ cmd_type c = cmd_type d /\ cmd_bank c = cmd_bank d /\ cmd_rank c = cmd_rank d /\ cmd_dbank c = cmd_dbank d /\
  cmd_data c = cmd_data d /\ cmd_sz_bits c = cmd_sz_bits d.
(* Related commands in the same places, everything else the same. *)
Inductive matching (R : Command -> Command -> Prop) : use -> use -> Prop :=
| match_both c d : R c d -> matching R (Both c) (Both d)
| match_core c d : R c d -> matching R (CoreOnly c) (CoreOnly d)
| match_iface c d : R c d -> matching R (Iface (Do c)) (Iface (Do d))
| match_same u : matching R u u.
