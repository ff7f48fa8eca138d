(* Commands.  Models src/DRAMPower/DRAMPower/command/CmdType.h and Command.h. *)
From Coq Require Import NArith List Bool String.
Import ListNotations.
Local Open Scope N_scope.

(* enum class CmdType: command/CmdType.h 15-40. *)
Inductive CmdType : Type :=
| NOP | RD | WR | RDA | WRA | ACT | PRE | REFB | REFP2B | REFDB | PRESB | REFSB
| PREA | REFA | PDEA | PDEP | PDXA | PDXP | SREFEN | SREFEX | DSMEN | DSMEX
| END_OF_SIMULATION | COUNT.

Scheme Equality for CmdType.

(* Every enumerator, in declaration order: command/CmdType.h 16-39. *)
Definition all_cmd_types : list CmdType :=
  [NOP; RD; WR; RDA; WRA; ACT; PRE; REFB; REFP2B; REFDB; PRESB; REFSB; PREA;
   REFA; PDEA; PDEP; PDXA; PDXP; SREFEN; SREFEX; DSMEN; DSMEX;
   END_OF_SIMULATION; COUNT].

(* CmdTypeUtil::needs_data: command/CmdType.h 44-56. *)
Definition needs_data (c : CmdType) : bool :=
  match c with RD | RDA | WR | WRA => true | _ => false end.

(* CmdTypeUtil::from_string: command/CmdType.h 59-108 (tests in this order,
   anything else is NOP). *)
Definition from_string (s : string) : CmdType :=
  if String.eqb s "NOP" then NOP
  else if String.eqb s "ACT" then ACT
  else if String.eqb s "PRE" then PRE
  else if String.eqb s "PREA" then PREA
  else if String.eqb s "PRESB" then PRESB
  else if String.eqb s "REFA" then REFA
  else if String.eqb s "REFB" then REFB
  else if String.eqb s "REFSB" then REFSB
  else if String.eqb s "REFP2B" then REFP2B
  else if String.eqb s "REFDB" then REFDB
  else if String.eqb s "RD" then RD
  else if String.eqb s "RDA" then RDA
  else if String.eqb s "WR" then WR
  else if String.eqb s "WRA" then WRA
  else if String.eqb s "PDEA" then PDEA
  else if String.eqb s "PDEP" then PDEP
  else if String.eqb s "PDXA" then PDXA
  else if String.eqb s "PDXP" then PDXP
  else if String.eqb s "SREFEN" then SREFEN
  else if String.eqb s "SREFEX" then SREFEX
  else if String.eqb s "DSMEN" then DSMEN
  else if String.eqb s "DSMEX" then DSMEX
  else if String.eqb s "END" then END_OF_SIMULATION
  else NOP.

(* CmdTypeUtil::to_string: command/CmdType.h 111-163. *)
Definition to_string (c : CmdType) : string :=
  match c with
  | NOP | COUNT => "NOP"
  | ACT => "ACT" | PRE => "PRE" | PREA => "PREA" | REFA => "REFA"
  | REFB => "REFB" | RD => "RD" | RDA => "RDA" | WR => "WR" | WRA => "WRA"
  | REFSB => "REFSB" | REFP2B => "REFP2B" | REFDB => "REFDB"
  | PRESB => "PRESB" | PDEA => "PDEA" | PDEP => "PDEP" | PDXA => "PDXA"
  | PDXP => "PDXP" | SREFEN => "SREFEN" | SREFEX => "SREFEX"
  | DSMEN => "DSMEN" | DSMEX => "DSMEX"
  | END_OF_SIMULATION => "END_OF_SIMULATION"
  end%string.

(* The five supported standards: one directory each under
   src/DRAMPower/DRAMPower/standards. *)
(* E.g. standards/ddr4/DDR4.h 24-86. *)
Inductive standard := DDR4 | DDR5 | LPDDR4 | LPDDR5 | LPDDR6.

(* Command + TargetCoordinate: command/Command.h 11-39; the dbank field is
   LPDDR6TargetCoordinate::dbank, standards/lpddr6/LPDDR6Command.h 13-24.
   The payload pointer and its size become a list of bytes and a bit count. *)
Record Command := mkCommand {
  cmd_ts : N;
  cmd_type : CmdType;
  cmd_bank : N;
  cmd_bankGroup : N;
  cmd_rank : N;
  cmd_row : N;
  cmd_column : N;
  cmd_dbank : N;
  cmd_data : list N;
  cmd_sz_bits : N
}.

(* LPDDR6TargetCoordinate(const TargetCoordinate&):
   standards/lpddr6/LPDDR6Command.cpp 8-15; `bank + 8` cannot wrap visibly
   because of the following % 16. *)
Definition lpddr6_dbank (bank : N) : N := (bank + 8) mod 16.
