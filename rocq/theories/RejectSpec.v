(* What a core makes of a command: which it takes, which stop the program, and what
   breach of protocol it notices. *)
From Coq Require Import NArith List Bool.
From Verif Require Import Base Command CoreModel HistorySpec DeviceSpec.
Import ListNotations.
Local Open Scope N_scope.

(* Taken; stopped by an assertion; refused with an exception; nothing is promised. *)
Inductive reaction := Taken | Asserted | Thrown | Unspecified.
Definition reaction_of {A} (o : outcome A) : reaction :=
  match o with Ok _ => Taken | Asserts => Asserted | Throws _ => Thrown | Undefined => Unspecified end.

(* The reaction to type and address alone. *)
Definition on_address (p : memspec) (c : Command) : reaction :=
  if in_standard p (cmd_type c) then
    match cmd_type c with
    | NOP | END_OF_SIMULATION => Taken
    | _ =>
        if Nat.ltb (N.to_nat (cmd_rank c)) (ms_ranks p) then
          match cmd_type c with
          | ACT | PRE | RD | WR | RDA | WRA | REFB | PRESB | REFSB => if Nat.ltb (addr c) (ms_banks p) then Taken else Asserted
          | REFP2B => if Nat.ltb (addr c) (ms_banks p)
                      then if Nat.ltb (Nat.modulo (addr c + ms_p2bOffset p) 16) (ms_banks p) then Taken else Unspecified
                      else Asserted
          | REFDB => if Nat.ltb (addr c) (ms_banks p) && Nat.ltb (N.to_nat (cmd_dbank c)) (ms_banks p) then Taken else Asserted
          | _ => Taken
          end
        else Asserted
    end
  else match ms_std p, cmd_type c with LPDDR5, REFP2B => Thrown | _, _ => Asserted end.
(* The mode a rank must be in for a command; nothing else of its state is looked at. *)
Definition wants (p : memspec) (k : CmdType) : option smode :=
  match k with
  | SREFEX | DSMEN => Some SelfRef
  | DSMEX => Some DeepSleep
  | PDXA => match ms_std p with DDR4 => Some ActPd | _ => None end
  | _ => None
  end.
(* With the rank in mode m. *)
Definition reaction_in (p : memspec) (m : smode) (c : Command) : reaction :=
  match on_address p c, wants p (cmd_type c) with
  | Taken, Some w => if smode_beq m w then Taken else Asserted
  | x, _ => x
  end.
(* The mode of the rank a command is for, when it comes after a history; Up for a rank
   that does not exist, where it plays no part. *)
Definition mode_before (p : memspec) (cs : list Command) (c : Command) : smode :=
  match device_at p (N.to_nat (cmd_rank c)) cs (cmd_ts c) with Some d => dv_mode d | None => Up end.
(* The device would refuse: the command breaks the protocol. *)
Definition breach (p : memspec) (cs : list Command) (c : Command) : Prop :=
  match device_at p (N.to_nat (cmd_rank c)) cs (cmd_ts c) with Some d => command p c d = None | None => False end.
