(* The command patterns of each standard and the overrides the interfaces set.
   Models registerPatterns and handleOverrides of the interfaces under
   src/DRAMPower/DRAMPower/standards. *)
From Coq Require Import NArith List Bool Arith.
From Verif Require Import Base Command Bits PatternModel.
Import ListNotations.
Local Open Scope N_scope.

(* registerPatterns: standards/ddr4/DDR4Interface.cpp 51-141. *)
Definition ddr4_patterns (t : CmdType) : list desc :=
  match t with
  | ACT => (* 54-58 *)
      [DL; DL; DR 16; DR 15; DR 14; DBG 0; DBG 1; DBA 0; DBA 1; DV; DV; DV; DR 12; DR 17; DR 13; DR 11; DR 10; DR 0;
       DR 1; DR 2; DR 3; DR 4; DR 5; DR 6; DR 7; DR 8; DR 9]
  | PRE => (* 60-64 *)
      [DL; DH; DL; DH; DL; DBG 0; DBG 1; DBA 0; DBA 1; DV; DV; DV; DV; DV; DV; DV; DL; DV; DV; DV; DV; DV; DV; DV; DV; DV; DV]
  | PREA => (* 66-70 *)
      [DL; DH; DL; DH; DL; DV; DV; DV; DV; DV; DV; DV; DV; DV; DV; DV; DH; DV; DV; DV; DV; DV; DV; DV; DV; DV; DV]
  | REFA => (* 72-76 *)
      [DL; DH; DL; DL; DH; DV; DV; DV; DV; DV; DV; DV; DV; DV; DV; DV; DV; DV; DV; DV; DV; DV; DV; DV; DV; DV; DV]
  | RD => (* 78-82 *)
      [DL; DH; DH; DL; DH; DBG 0; DBG 1; DBA 0; DBA 1; DV; DV; DV; DV; DV; DV; DV; DL; DC 0; DC 1; DC 2; DC 3; DC 4;
       DC 5; DC 6; DC 7; DC 8; DC 9]
  | RDA => (* 84-88 *)
      [DL; DH; DH; DL; DH; DBG 0; DBG 1; DBA 0; DBA 1; DV; DV; DV; DV; DV; DV; DV; DH; DC 0; DC 1; DC 2; DC 3; DC 4;
       DC 5; DC 6; DC 7; DC 8; DC 9]
  | WR => (* 90-94 *)
      [DL; DH; DH; DL; DL; DBG 0; DBG 1; DBA 0; DBA 1; DV; DV; DV; DV; DV; DV; DV; DL; DC 0; DC 1; DC 2; DC 3; DC 4;
       DC 5; DC 6; DC 7; DC 8; DC 9]
  | WRA => (* 96-100 *)
      [DL; DH; DH; DL; DL; DBG 0; DBG 1; DBA 0; DBA 1; DV; DV; DV; DV; DV; DV; DV; DH; DC 0; DC 1; DC 2; DC 3; DC 4;
       DC 5; DC 6; DC 7; DC 8; DC 9]
  | SREFEN => (* 102-106 *)
      [DL; DH; DL; DL; DH; DV; DV; DV; DV; DV; DV; DV; DV; DV; DV; DV; DV; DV; DV; DV; DV; DV; DV; DV; DV; DV; DV]
  | SREFEX => (* 108-116 *)
      [DH; DX; DX; DX; DX; DX; DX; DX; DX; DX; DX; DX; DX; DX; DX; DX; DX; DX; DX; DX; DX; DX; DX; DX; DX; DX; DX; DL;
       DH; DH; DH; DH; DV; DV; DV; DV; DV; DV; DV; DV; DV; DV; DV; DV; DV; DV; DV; DV; DV; DV; DV; DV; DV; DV]
  | PDEA => (* 118-122 *)
      [DH; DX; DX; DX; DX; DX; DX; DX; DX; DX; DX; DX; DX; DX; DX; DX; DX; DX; DX; DX; DX; DX; DX; DX; DX; DX; DX]
  | PDEP => (* 124-128 *)
      [DH; DX; DX; DX; DX; DX; DX; DX; DX; DX; DX; DX; DX; DX; DX; DX; DX; DX; DX; DX; DX; DX; DX; DX; DX; DX; DX]
  | PDXA => (* 130-134 *)
      [DH; DX; DX; DX; DX; DX; DX; DX; DX; DX; DX; DX; DX; DX; DX; DX; DX; DX; DX; DX; DX; DX; DX; DX; DX; DX; DX]
  | PDXP => (* 136-140 *)
      [DH; DX; DX; DX; DX; DX; DX; DX; DX; DX; DX; DX; DX; DX; DX; DX; DX; DX; DX; DX; DX; DX; DX; DX; DX; DX; DX]
  | _ => []
  end.

(* registerPatterns: standards/ddr5/DDR5Interface.cpp 48-120. *)
Definition ddr5_patterns (t : CmdType) : list desc :=
  match t with
  | ACT => (* 51-55 *)
      [DL; DL; DR 0; DR 1; DR 2; DR 3; DBA 0; DBA 1; DBG 0; DBG 1; DBG 2; DCID 0; DCID 1; DCID 2; DR 4; DR 5; DR 6;
       DR 7; DR 8; DR 9; DR 10; DR 11; DR 12; DR 13; DR 14; DR 15; DR 16; DCID 3]
  | PRE => (* 57-59 *)
      [DH; DH; DL; DH; DH; DCID 3; DBA 0; DBA 1; DBG 0; DBG 1; DBG 2; DCID 0; DCID 1; DCID 2]
  | RD => (* 61-64 *)
      [DH; DL; DH; DH; DH; DH; DBA 0; DBA 1; DBG 0; DBG 1; DBG 2; DCID 0; DCID 1; DCID 2; DC 2; DC 3; DC 4; DC 5; DC 6;
       DC 7; DC 8; DC 9; DC 10; DV; DH; DV; DV; DCID 3]
  | RDA => (* 66-69 *)
      [DH; DL; DH; DH; DH; DH; DBA 0; DBA 1; DBG 0; DBG 1; DBG 2; DCID 0; DCID 1; DCID 2; DC 2; DC 3; DC 4; DC 5; DC 6;
       DC 7; DC 8; DC 9; DC 10; DV; DL; DV; DV; DCID 3]
  | WR => (* 71-74 *)
      [DH; DL; DH; DH; DL; DH; DBA 0; DBA 1; DBG 0; DBG 1; DBG 2; DCID 0; DCID 1; DCID 2; DV; DC 3; DC 4; DC 5; DC 6;
       DC 7; DC 8; DC 9; DC 10; DV; DH; DH; DV; DCID 3]
  | WRA => (* 76-79 *)
      [DH; DL; DH; DH; DL; DH; DBA 0; DBA 1; DBG 0; DBG 1; DBG 2; DCID 0; DCID 1; DCID 2; DV; DC 3; DC 4; DC 5; DC 6;
       DC 7; DC 8; DC 9; DC 10; DV; DL; DH; DV; DCID 3]
  | PRESB => (* 81-83 *)
      [DH; DH; DL; DH; DL; DCID 3; DBA 0; DBA 1; DV; DV; DH; DCID 0; DCID 1; DCID 2]
  | REFSB => (* 85-87 *)
      [DH; DH; DL; DL; DH; DCID 3; DBA 0; DBA 1; DV; DV; DH; DCID 0; DCID 1; DCID 2]
  | REFA => (* 89-91 *)
      [DH; DH; DL; DL; DH; DCID 3; DV; DV; DV; DV; DL; DCID 0; DCID 1; DCID 2]
  | PREA => (* 93-95 *)
      [DH; DH; DL; DH; DL; DCID 3; DV; DV; DV; DV; DL; DCID 0; DCID 1; DCID 2]
  | SREFEN => (* 97-99 *)
      [DH; DH; DH; DL; DH; DV; DV; DV; DV; DH; DL; DV; DV; DV]
  | PDEA => (* 101-103 *)
      [DH; DH; DH; DL; DH; DV; DV; DV; DV; DV; DH; DL; DV; DV]
  | PDEP => (* 105-107 *)
      [DH; DH; DH; DL; DH; DV; DV; DV; DV; DV; DH; DL; DV; DV]
  | PDXA => (* 109-111 *)
      [DH; DH; DH; DH; DH; DV; DV; DV; DV; DV; DV; DV; DV; DV]
  | PDXP => (* 113-115 *)
      [DH; DH; DH; DH; DH; DV; DV; DV; DV; DV; DV; DV; DV; DV]
  | NOP => (* 117-119 *)
      [DH; DH; DH; DH; DH; DV; DV; DV; DV; DV; DV; DV; DV; DV]
  | _ => []
  end.

(* registerPatterns: standards/lpddr4/LPDDR4Interface.cpp 48-115. *)
Definition lpddr4_patterns (t : CmdType) : list desc :=
  match t with
  | ACT => (* 51-56 *)
      [DH; DL; DR 12; DR 13; DR 14; DR 15; DBA 0; DBA 1; DBA 2; DR 16; DR 10; DR 11; DR 17; DR 18; DR 6; DR 7; DR 8;
       DR 9; DR 0; DR 1; DR 2; DR 3; DR 4; DR 5]
  | PRE => (* 58-61 *)
      [DL; DL; DL; DL; DH; DL; DBA 0; DBA 1; DBA 2; DV; DV; DV]
  | PREA => (* 63-66 *)
      [DL; DL; DL; DL; DH; DH; DV; DV; DV; DV; DV; DV]
  | REFB => (* 68-71 *)
      [DL; DL; DL; DH; DL; DL; DBA 0; DBA 1; DBA 2; DV; DV; DV]
  | RD => (* 73-78 *)
      [DL; DH; DL; DL; DL; DBL; DBA 0; DBA 1; DBA 2; DV; DC 9; DL; DL; DH; DL; DL; DH; DC 8; DC 2; DC 3; DC 4; DC 5; DC 6; DC 7]
  | RDA => (* 80-85 *)
      [DL; DH; DL; DL; DL; DBL; DBA 0; DBA 1; DBA 2; DV; DC 9; DH; DL; DH; DL; DL; DH; DC 8; DC 2; DC 3; DC 4; DC 5; DC 6; DC 7]
  | WR => (* 87-92 *)
      [DL; DL; DH; DL; DL; DBL; DBA 0; DBA 1; DBA 2; DV; DC 9; DL; DL; DH; DL; DL; DH; DC 8; DC 2; DC 3; DC 4; DC 5; DC 6; DC 7]
  | WRA => (* 94-99 *)
      [DL; DL; DH; DL; DL; DBL; DBA 0; DBA 1; DBA 2; DV; DC 9; DH; DL; DH; DL; DL; DH; DC 8; DC 2; DC 3; DC 4; DC 5; DC 6; DC 7]
  | REFA => (* 101-104 *)
      [DL; DL; DL; DH; DL; DH; DV; DV; DV; DV; DV; DV]
  | SREFEN => (* 106-109 *)
      [DL; DL; DL; DH; DH; DV; DV; DV; DV; DV; DV; DV]
  | SREFEX => (* 111-114 *)
      [DL; DL; DH; DL; DH; DV; DV; DV; DV; DV; DV; DV]
  | _ => []
  end.

(* MemSpecLPDDR5::BankArchitectureMode: memspec/MemSpecLPDDR5.h 18-22. *)
Inductive bank_arch := MBG | M16B | M8B.
(* pattern[i] = d. *)
(* E.g. lpddr5/LPDDR5Interface.cpp 65-68. *)
Definition set_desc (p : list desc) (i : nat) (d : desc) : list desc := upd i (fun _ => d) p.
(* ACT: standards/lpddr5/LPDDR5Interface.cpp 52-69. *)
Definition lpddr5_act (a : bank_arch) : list desc :=
  let p := [DH; DH; DH; DR 14; DR 15; DR 16; DR 17; DBA 0; DBA 1; DBA 2; DBA 3; DR 11; DR 12; DR 13;
            DH; DH; DL; DR 7; DR 8; DR 9; DR 10; DR 0; DR 1; DR 2; DR 3; DR 4; DR 5; DR 6] in
  match a with MBG => set_desc (set_desc p 9 (DBG 0)) 10 (DBG 1) | M8B => set_desc p 10 DV | M16B => p end.
(* standards/lpddr5/LPDDR5Interface.cpp 72-84. *)
Definition lpddr5_pre (a : bank_arch) : list desc :=
  let p := [DL; DL; DL; DH; DH; DH; DH; DBA 0; DBA 1; DBA 2; DBA 3; DV; DV; DL] in
  match a with MBG => set_desc (set_desc p 9 (DBG 0)) 10 (DBG 1) | M8B => set_desc p 10 DV | M16B => p end.
(* standards/lpddr5/LPDDR5Interface.cpp 86-98. *)
Definition lpddr5_prea (a : bank_arch) : list desc :=
  let p := [DL; DL; DL; DH; DH; DH; DH; DV; DV; DV; DV; DV; DV; DH] in
  match a with MBG => set_desc (set_desc p 9 (DBG 0)) 10 (DBG 1) | M8B => set_desc p 10 DV | M16B => p end.
(* standards/lpddr5/LPDDR5Interface.cpp 102-111. *)
Definition lpddr5_refb (a : bank_arch) : list desc :=
  let p := [DL; DL; DL; DH; DH; DH; DL; DBA 0; DBA 1; DBA 2; DV; DV; DV; DL] in
  match a with MBG => set_desc p 9 (DBG 0) | M8B | M16B => p end.
(* RD and RDA: standards/lpddr5/LPDDR5Interface.cpp 113-139. *)
Definition lpddr5_rd (ap : desc) (a : bank_arch) : list desc :=
  let p := [DH; DL; DL; DC 0; DC 3; DC 4; DC 5; DBA 0; DBA 1; DBA 2; DBA 3; DC 1; DC 2; ap] in
  match a with MBG => set_desc (set_desc p 9 (DBG 0)) 10 (DBG 1) | M8B => set_desc p 10 DL | M16B => p end.
(* WR and WRA: standards/lpddr5/LPDDR5Interface.cpp 141-167. *)
Definition lpddr5_wr (ap : desc) (a : bank_arch) : list desc :=
  let p := [DL; DH; DH; DC 0; DC 3; DC 4; DC 5; DBA 0; DBA 1; DBA 2; DBA 3; DC 1; DC 2; ap] in
  match a with MBG => set_desc (set_desc p 9 (DBG 0)) 10 (DBG 1) | M8B => set_desc p 10 DV | M16B => p end.
(* standards/lpddr5/LPDDR5Interface.cpp 173-182. *)
Definition lpddr5_refa (a : bank_arch) : list desc :=
  let p := [DL; DL; DL; DH; DH; DH; DL; DV; DV; DV; DV; DV; DV; DH] in
  match a with MBG => set_desc p 9 (DBG 0) | M8B | M16B => p end.
(* registerPatterns: standards/lpddr5/LPDDR5Interface.cpp 44-239; REFP2B is
   registered for two of the three bank architectures (169-171). *)
Definition lpddr5_patterns (a : bank_arch) (t : CmdType) : list desc :=
  match t with
  | ACT => lpddr5_act a
  | PRE => lpddr5_pre a
  | PREA => lpddr5_prea a
  | REFB => lpddr5_refb a
  | RD => lpddr5_rd DL a
  | RDA => lpddr5_rd DH a
  | WR => lpddr5_wr DL a
  | WRA => lpddr5_wr DH a
  | REFP2B => match a with MBG | M16B => lpddr5_refb a | M8B => [] end
  | REFA => lpddr5_refa a
  | SREFEN => [DL; DL; DL; DH; DL; DH; DH; DV; DV; DV; DV; DV; DL; DL]
  | PDEA | PDEP => [DL; DL; DL; DH; DL; DH; DH; DV; DV; DV; DV; DV; DL; DH]
  | DSMEN => [DL; DL; DL; DH; DL; DH; DH; DV; DV; DV; DV; DV; DH; DL]
  | SREFEX | PDXA | PDXP | DSMEX => [DL; DL; DL; DH; DL; DH; DL; DV; DV; DV; DV; DV; DV; DV]
  | _ => []
  end.

(* Lambdas of registerPatterns: standards/lpddr6/LPDDR6Interface.cpp 127-154. *)
Definition lpddr6_pre (ab : bool) : list desc6 :=
  [EL; EL; EL; EPAR; EH; EH; EV; ESC; EV; EV; EV; if ab then EH else EL;
   if ab then EX else EBA 0; if ab then EX else EBA 1; if ab then EX else EBG 0; if ab then EX else EBG 1].
(* The refresh lambda: standards/lpddr6/LPDDR6Interface.cpp 141-154. *)
Definition lpddr6_ref (rfm : desc6) (ab : bool) : list desc6 :=
  [EL; EL; EL; EPAR; EH; EL; rfm; ESC; if ab then EX else EDBG 0; if ab then EX else EDBG 1; EV; if ab then EH else EL;
   if ab then EX else EBA 0; if ab then EX else EBA 1; if ab then EX else EBG 0; if ab then EX else EBG 1].
(* registerPatterns: standards/lpddr6/LPDDR6Interface.cpp 48-212. *)
Definition lpddr6_patterns (t : CmdType) : list desc6 :=
  match t with
  | NOP => [EL; EL; EL; EPAR; EL; EL; EL; EV; EX; EX; EX; EX; EX; EX; EX; EX]
  | PDEA | PDEP => [EL; EL; EL; EPAR; EL; EH; EL; EV; EX; EX; EX; EX; EX; EX; EX; EX]
  | PDXA | PDXP => [EV; EX; EX; EX; EV; EX; EX; EX; EV; EX; EX; EX; EV; EX; EX; EX]
  | SREFEN => [EL; EL; EL; EPAR; EL; EL; EH; EH; EX; EX; EX; EX; EX; EX; EX; EX]
  | SREFEX => [EL; EL; EL; EPAR; EL; EH; EH; EV; EX; EX; EX; EX; EX; EX; EX; EX]
  | PRE => lpddr6_pre false
  | PREA => lpddr6_pre true
  | REFDB => lpddr6_ref EL false
  | REFA => lpddr6_ref EL true
  | ACT => [EH; EH; EH; EPAR; EH; ER 15; ER 16; ESC; ER 11; ER 12; ER 13; ER 14; EBA 0; EBA 1; EBG 0; EBG 1;
            EH; EH; EH; EPAR; EL; ER 8; ER 9; ER 10; ER 4; ER 5; ER 6; ER 7; ER 0; ER 1; ER 2; ER 3]
  | WR => [EBL; EL; EH; EPAR; EC 0; EC 1; EL; ESC; EC 2; EC 3; EC 4; EC 5; EBA 0; EBA 1; EBG 0; EBG 1]
  | WRA => [EBL; EL; EH; EPAR; EC 0; EC 1; EH; ESC; EC 2; EC 3; EC 4; EC 5; EBA 0; EBA 1; EBG 0; EBG 1]
  | RD => [EBL; EH; EL; EPAR; EC 0; EC 1; EL; ESC; EC 2; EC 3; EC 4; EC 5; EBA 0; EBA 1; EBG 0; EBG 1]
  | RDA => [EBL; EH; EL; EPAR; EC 0; EC 1; EH; ESC; EC 2; EC 3; EC 4; EC 5; EBA 0; EBA 1; EBG 0; EBG 1]
  | _ => []
  end.

(* ---- overrides ---- *)

(* DDR4Interface::handleOverrides: standards/ddr4/DDR4Interface.cpp 236-286; the
   default branch falls through to length 8. *)
Definition ddr4_overrides (o : overrides) (length : N) (read : bool) : overrides :=
  if length =? 4
  then if read then ov_update o [(DC 2, SpecL); (DC 1, SpecL); (DC 0, SpecL)]
       else ov_update o [(DC 2, SpecL); (DC 1, SpecH); (DC 0, SpecH)]
  else if read then ov_update o [(DC 2, SpecL); (DC 1, SpecL); (DC 0, SpecL)]
       else ov_update o [(DC 2, SpecH); (DC 1, SpecH); (DC 0, SpecH)].
(* DDR5Interface::handleOverrides: standards/ddr5/DDR5Interface.cpp 161-228; the
   default branch falls through to length 16. *)
Definition ddr5_overrides (o : overrides) (length : N) (read : bool) : overrides :=
  if length =? 8
  then let o := ov_remove o (DC 10) in
       if read then ov_update o [(DC 3, SpecL); (DC 2, SpecL)] else ov_update o [(DC 3, SpecL); (DC 2, SpecH)]
  else if length =? 32
  then if read then ov_update o [(DC 10, SpecL); (DC 3, SpecL); (DC 2, SpecL)]
       else ov_update o [(DC 10, SpecL); (DC 3, SpecH); (DC 2, SpecH)]
  else let o := ov_remove o (DC 10) in
       if read then ov_update o [(DC 3, SpecL); (DC 2, SpecL)] else ov_update o [(DC 3, SpecH); (DC 2, SpecH)].
(* LPDDR4Interface::handleOverrides: standards/lpddr4/LPDDR4Interface.cpp
   174-199. *)
Definition lpddr4_overrides (o : overrides) (length : N) (read : bool) : overrides :=
  if length =? 32
  then ov_update o [(DC 4, SpecL); (DC 3, SpecL); (DC 2, SpecL); (DBL, SpecH)]
  else ov_update (ov_remove o (DC 4)) [(DC 3, SpecL); (DC 2, SpecL); (DBL, SpecL)].
(* LPDDR5Interface::handleOverrides: standards/lpddr5/LPDDR5Interface.cpp
   306-321. *)
Definition lpddr5_overrides (o : overrides) (length : N) (read : bool) : overrides :=
  if length =? 32 then ov_update o [(DC 0, SpecL)] else ov_remove o (DC 0).

(* The initial overrides and last pattern: standards/ddr4/DDR4Interface.cpp
   43-46. *)
Definition ddr4_handler : handler := mkHandler (ov_new [(DV, SpecH); (DX, SpecH)]) ddr4_patterns (N.ones 27).
(* standards/ddr5/DDR5Interface.cpp 33-43. *)
Definition ddr5_handler : handler :=
  mkHandler (ov_new [(DV, SpecH); (DX, SpecH); (DC 0, SpecH); (DC 1, SpecH)]) ddr5_patterns (N.ones 14).
(* standards/lpddr4/LPDDR4Interface.cpp 40-43. *)
Definition lpddr4_handler : handler := mkHandler (ov_new [(DC 0, SpecL); (DC 1, SpecL)]) lpddr4_patterns 0.
(* standards/lpddr5/LPDDR5Interface.cpp 39. *)
Definition lpddr5_handler (a : bank_arch) : handler := mkHandler (ov_new []) (lpddr5_patterns a) 0.
(* standards/lpddr6/LPDDR6Interface.cpp 41-45 and
   standards/lpddr6/LPDDR6Pattern.h 31-33. *)
Definition lpddr6_handler (groups : N) : handler6 := mkHandler6 (mkExtra 0 groups false) lpddr6_patterns 0.
