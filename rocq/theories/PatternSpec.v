(* What a command pattern asks for: the yardstick for C21 and C22. *)
From Coq Require Import NArith List Bool Arith.
From Verif Require Import Base Command Bits PatternModel PatternTables.
Import ListNotations.
Local Open Scope N_scope.

(* The address fields of a command. *)
Inductive field := Bank | BankGroup | Row | Column | SubChannel | DBankGroup.
Definition field_of (c : coord) (f : field) : N :=
  match f with Bank => co_bank c | BankGroup => co_bankGroup c | Row => co_row c | Column => co_column c
  | SubChannel => co_sub c | DBankGroup => co_dbank c / 4 end.

(* The address bit a descriptor stands for, where the encoder knows it. *)
Definition addr (d : desc) : option (field * nat) :=
  match d with
  | DBA k => if Nat.leb k 8 then Some (Bank, k) else None
  | DBG k => if Nat.leb k 2 then Some (BankGroup, k) else None
  | DR k => if Nat.leb k 17 then Some (Row, k) else None
  | DC k => if Nat.leb k 16 then Some (Column, k) else None
  | _ => None
  end.
(* Descriptors the user may fix with a setting. *)
Definition settable (d : desc) : bool :=
  match d with DV | DX | DAP | DBL | DCID _ => true | DC k => Nat.leb k 4 || Nat.eqb k 10 | _ => false end.
(* The level without a setting: the address bit, high for BL and CID, low for
   everything else. *)
Definition unset (c : coord) (d : desc) : bool :=
  match addr d with
  | Some (f, k) => N.testbit (field_of c f) (N.of_nat k)
  | None => match d with DH | DBL | DCID _ => true | _ => false end
  end.
(* The level demanded by a descriptor at bit position pos. *)
Definition demanded (o : overrides) (last : N) (c : coord) (pos : nat) (d : desc) : bool :=
  if settable d
  then match ov_find o d with
       | Some SpecL => false
       | Some SpecH => true
       | Some SpecLast => N.testbit last (N.of_nat pos)
       | Some SpecInvalid | None => unset c d
       end
  else unset c d.

(* The same for LPDDR6; the number of bank groups is 4.  The parity bit is not
   demanded here. *)
Definition addr6 (d : desc6) : option (field * nat) :=
  match d with
  | EBA k => Some (Bank, k) | EBG k => Some (BankGroup, k) | EDBG k => Some (DBankGroup, k) | EC k => Some (Column, k) | ER k => Some (Row, k)
  | _ => None
  end.
Definition demanded6 (e : extra6) (c : coord) (d : desc6) : bool :=
  match d with
  | EC 0 => if ex_burst e =? 24 then N.testbit (co_column c) 0 else false
  | EH => true
  | EBL => ex_burst e =? 24
  | ESC => co_sub c =? 1
  | d => match addr6 d with Some (f, k) => N.testbit (field_of c f) (N.of_nat k) | None => false end
  end.

(* The low bits of two numbers. *)
Definition same_low (k : nat) (x y : N) : Prop := x mod 2 ^ N.of_nat k = y mod 2 ^ N.of_nat k.

(* The address bits each command is meant to carry, as field, lowest bit and
   number of bits.  The column bits below the burst are not among them. *)
Definition ddr4_carried (t : CmdType) : list (field * nat * nat) :=
  match t with
  | ACT => [(Bank, 0, 2); (BankGroup, 0, 2); (Row, 0, 18)]
  | PRE => [(Bank, 0, 2); (BankGroup, 0, 2)]
  | RD | RDA | WR | WRA => [(Bank, 0, 2); (BankGroup, 0, 2); (Column, 3, 7)]
  | _ => []
  end%nat.
Definition ddr5_carried (t : CmdType) : list (field * nat * nat) :=
  match t with
  | ACT => [(Bank, 0, 2); (BankGroup, 0, 3); (Row, 0, 17)]
  | PRE => [(Bank, 0, 2); (BankGroup, 0, 3)]
  | PRESB | REFSB => [(Bank, 0, 2)]
  | RD | RDA | WR | WRA => [(Bank, 0, 2); (BankGroup, 0, 3); (Column, 4, 6)]
  | _ => []
  end%nat.
Definition lpddr4_carried (t : CmdType) : list (field * nat * nat) :=
  match t with
  | ACT => [(Bank, 0, 3); (Row, 0, 18)]
  | PRE | REFB => [(Bank, 0, 3)]
  | RD | RDA | WR | WRA => [(Bank, 0, 3); (Column, 5, 5)]
  | _ => []
  end%nat.
Definition lpddr5_banks (a : bank_arch) : list (field * nat * nat) :=
  match a with MBG => [(Bank, 0, 2); (BankGroup, 0, 2)] | M16B => [(Bank, 0, 4)] | M8B => [(Bank, 0, 3)] end%nat.
(* A per-bank refresh carries one address bit less than the banks need in two
   of the three bank architectures. *)
Definition lpddr5_carried (a : bank_arch) (t : CmdType) : list (field * nat * nat) :=
  match t with
  | ACT => (Row, 0, 18) :: lpddr5_banks a
  | PRE => lpddr5_banks a
  | REFB => match a with MBG => [(Bank, 0, 2); (BankGroup, 0, 1)] | M16B | M8B => [(Bank, 0, 3)] end
  | RD | RDA | WR | WRA => (Column, 1, 5) :: lpddr5_banks a
  | _ => []
  end%nat.
Definition lpddr6_carried (t : CmdType) : list (field * nat * nat) :=
  match t with
  | ACT => [(Bank, 0, 2); (BankGroup, 0, 2); (Row, 0, 17)]
  | PRE => [(Bank, 0, 2); (BankGroup, 0, 2)]
  | REFDB => [(Bank, 0, 2); (BankGroup, 0, 2); (DBankGroup, 0, 2)]
  | RD | RDA | WR | WRA => [(Bank, 0, 2); (BankGroup, 0, 2); (Column, 1, 5)]
  | _ => []
  end%nat.
(* Both commands have the same value in those bits. *)
Definition same_part (c c' : coord) (x : field * nat * nat) : Prop :=
  match x with (f, lo, n) => same_low n (field_of c f / 2 ^ N.of_nat lo) (field_of c' f / 2 ^ N.of_nat lo) end.

(* Command types that a standard encodes alike, as classes. *)
Definition ddr4_alike : list (list CmdType) := [[REFA; SREFEN]; [PDEA; PDEP; PDXA; PDXP]].
Definition ddr5_alike : list (list CmdType) := [[PDEA; PDEP]; [PDXA; PDXP; NOP]].
Definition lpddr5_alike : list (list CmdType) := [[REFB; REFP2B]; [PDEA; PDEP]; [SREFEX; PDXA; PDXP; DSMEX]].
Definition lpddr6_alike : list (list CmdType) := [[PDEA; PDEP]; [PDXA; PDXP; NOP]].
Definition in_class (t : CmdType) (l : list CmdType) : bool := existsb (CmdType_beq t) l.
Definition alike (classes : list (list CmdType)) (t t' : CmdType) : bool :=
  CmdType_beq t t' || existsb (fun l => in_class t l && in_class t' l) classes.

(* The settings an interface can reach: those of its constructor, then any
   number of handleOverrides. *)
Inductive settings (o0 : overrides) (f : overrides -> N -> bool -> overrides) : overrides -> Prop :=
| at_start : settings o0 f o0
| after_override o len read : settings o0 f o -> settings o0 f (f o len read).

(* A series of commands through one handler, and the words. *)
Fixpoint pattern_run (h : handler) (cs : list (CmdType * coord)) : result (list N) :=
  match cs with
  | [] => Value []
  | (t, c) :: r => x <- command_pattern h t c ;; ws <- pattern_run (snd x) r ;; Value (fst x :: ws)
  end.
