(* How a trace ends: the yardstick for C73. *)
From Coq Require Import NArith List Bool.
From Verif Require Import Base Command CoreModel Bits InterfaceModel InterfaceSpec ProgressSpec TakenSpec HistorySpec DeviceSpec RejectSpec DramModel CliModel.
Import ListNotations.
Local Open Scope N_scope.

(* An interface that does not take a command says so by an assertion; but DDR5 knows no
   word for the exit from self-refresh and LPDDR5 with eight banks none for the refresh
   of two banks, and there an exception is thrown. *)
Definition interface_says (p : ifspec) (c : Command) : failure :=
  match fi_std p, cmd_type c with
  | DDR5, SREFEX => Exception
  | LPDDR5, REFP2B => if eight (fi_arch p) then Exception else Assertion
  | _, _ => Assertion
  end.

(* What the core makes of a command that comes after others, and when this is known:
   always, unless the command wants a mode and the protocol was broken before. *)
Definition core_says (p : memspec) (cs : list Command) (c : Command) : reaction := reaction_in p (mode_before p cs c) c.
Definition predictable (p : memspec) (cs : list Command) : Prop :=
  forall pre c post, cs = pre ++ c :: post -> wants p (cmd_type c) = None \/ timely p pre (cmd_ts c) /\ legal_history p pre.
(* All commands are taken, by both. *)
Definition core_takes_all (p : memspec) (cs : list Command) : Prop := forall pre c post, cs = pre ++ c :: post -> core_says p pre c = Taken.
Definition all_taken (p : dspec) (bus : bool) (cs : list Command) : Prop := core_takes_all (dp_core p) cs /\ trace_allowed (dp_if p) bus cs.
(* The first command that is not taken and how it is answered: by the core, which is
   asked first, or by the interface. *)
Inductive answer := ByCore (r : reaction) | ByInterface (f : failure).
Definition refused_first (p : dspec) (bus : bool) (cs : list Command) (c : Command) (a : answer) : Prop :=
  all_taken p bus cs /\
  match core_says (dp_core p) cs c with
  | Taken => ~ trace_allowed (dp_if p) bus (cs ++ [c]) /\ a = ByInterface (interface_says (dp_if p) c)
  | r => a = ByCore r
  end.
(* How a run of commands then ends. *)
Definition run_stops (a : answer) : ran :=
  match a with
  | ByCore Thrown | ByInterface Exception => ReturnsFalse
  | ByCore Unspecified => Dies UB
  | ByCore _ => Dies Assertion
  | ByInterface f => Dies f
  end.
(* What the program then does: an exception is caught and reported, an assertion stops
   it, and for a bank pair that does not exist nothing is promised. *)
Definition program_stops (a : answer) : program_end :=
  match a with
  | ByCore Thrown | ByInterface Exception => Failed
  | ByCore Unspecified => Died UB
  | ByCore _ => Died Assertion
  | ByInterface f => Died f
  end.
(* A command its standard has no word for, and a refresh of a pair of banks of which
   the second does not exist. *)
Definition wordless (p : dspec) (c : Command) : Prop :=
  fi_std (dp_if p) = DDR5 /\ cmd_type c = SREFEX \/ ms_std (dp_core p) = LPDDR5 /\ cmd_type c = REFP2B.
Definition partnerless (p : dspec) (c : Command) : Prop :=
  cmd_type c = REFP2B /\ (ms_banks (dp_core p) <= Nat.modulo (addr c + ms_p2bOffset (dp_core p)) 16)%nat.
