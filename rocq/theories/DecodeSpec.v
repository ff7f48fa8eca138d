(* What a memory device makes of the command pins, as the truth tables of the
   standards have it.  Pins are numbered as they come: the first pin of the first beat
   is 0.  Nothing here knows how the patterns are written down or encoded. *)
From Coq Require Import NArith List Bool.
From Verif Require Import Command.
Import ListNotations.
Local Open Scope N_scope.

(* What a device is told to do.  [ap]: with auto-precharge; [other]: the bank group
   of the second bank. *)
Inductive order :=
| Deselect | Idle | Activate | Precharge | PrechargeAll | PrechargeSame | RefreshBank | RefreshPair (other : N) | RefreshAll | RefreshSame
| Read (ap : bool) | Write (ap : bool) | SelfRefresh | PowerDown | DeepSleep | Wake | Unknown.
(* With the addresses that come along, 0 where there are none.  The column is without
   the bits inside a burst. *)
Record heard := mkHeard { he_order : order; he_bank : N; he_group : N; he_row : N; he_column : N }.
Definition only (o : order) : heard := mkHeard o 0 0 0 0.

(* Bit [n - 1 - i] of a word of [n] pins. *)
Definition pin (n : nat) (w : N) (i : nat) : bool := N.testbit w (N.of_nat (n - 1 - i)).
(* The number on some pins, the lowest bit first. *)
Fixpoint number (l : list bool) : N := match l with [] => 0 | b :: r => N.b2n b + 2 * number r end.
Definition on (v : nat -> bool) (l : list nat) : N := number (map v l).

(* DDR4: CS_n, ACT_n, RAS_n/A16, CAS_n/A15, WE_n/A14, BG0, BG1, BA0, BA1, then three
   chip identifiers, A12, A17, A13, A11, A10, A0 to A9. *)
Definition ddr4_hears (v : nat -> bool) : heard :=
  let bank := on v [7; 8]%nat in let group := on v [5; 6]%nat in
  let column := on v [20; 21; 22; 23; 24; 25; 26]%nat in
  if v 0%nat then only Deselect
  else if negb (v 1%nat)
  then mkHeard Activate bank group (on v [17; 18; 19; 20; 21; 22; 23; 24; 25; 26; 16; 15; 12; 14; 4; 3; 2; 13]%nat) 0
  else match v 2%nat, v 3%nat, v 4%nat with
       | false, false, true => only RefreshAll
       | false, true, false => if v 16%nat then only PrechargeAll else mkHeard Precharge bank group 0 0
       | true, false, true => mkHeard (Read (v 16%nat)) bank group 0 column
       | true, false, false => mkHeard (Write (v 16%nat)) bank group 0 column
       | true, true, true => only Idle
       | _, _, _ => only Unknown
       end.

(* DDR5: CA0 to CA13, twice for activate, read and write. *)
Definition ddr5_hears (v : nat -> bool) : heard :=
  let bank := on v [6; 7]%nat in let group := on v [8; 9; 10]%nat in
  let column := on v [16; 17; 18; 19; 20; 21]%nat in
  match v 0%nat, v 1%nat with
  | false, false => mkHeard Activate bank group (on v [2; 3; 4; 5; 14; 15; 16; 17; 18; 19; 20; 21; 22; 23; 24; 25; 26]%nat) 0
  | true, false => match v 2%nat, v 3%nat, v 4%nat with
                   | true, true, true => mkHeard (Read (negb (v 24%nat))) bank group 0 column
                   | true, true, false => mkHeard (Write (negb (v 24%nat))) bank group 0 column
                   | _, _, _ => only Unknown
                   end
  | true, true => match v 2%nat, v 3%nat, v 4%nat with
                  | false, true, true => mkHeard Precharge bank group 0 0
                  | false, true, false => if v 10%nat then mkHeard PrechargeSame bank 0 0 0 else only PrechargeAll
                  | false, false, true => if v 10%nat then mkHeard RefreshSame bank 0 0 0 else only RefreshAll
                  | true, false, true => if v 10%nat then only PowerDown else only SelfRefresh
                  | true, true, true => only Idle
                  | _, _, _ => only Unknown
                  end
  | false, true => only Unknown
  end.
Definition ddr5_pins (o : order) : nat := match o with Activate | Read _ | Write _ => 28 | _ => 14 end.

(* LPDDR4: CA0 to CA5, two beats, four for activate, read and write, where the second
   half of a read or write is a column command of its own. *)
Definition lpddr4_hears (v : nat -> bool) : heard :=
  let bank := on v [6; 7; 8]%nat in
  let column := on v [21; 22; 23; 17; 10]%nat in
  let cas := negb (v 12%nat) && v 13%nat && negb (v 14%nat) && negb (v 15%nat) && v 16%nat in
  match v 0%nat, v 1%nat, v 2%nat, v 3%nat, v 4%nat with
  | true, false, _, _, _ => mkHeard Activate bank 0 (on v [18; 19; 20; 21; 22; 23; 14; 15; 16; 17; 10; 11; 2; 3; 4; 5; 9; 12]%nat) 0
  | false, true, false, false, false => if cas then mkHeard (Read (v 11%nat)) bank 0 0 column else only Unknown
  | false, false, true, false, false => if cas then mkHeard (Write (v 11%nat)) bank 0 0 column else only Unknown
  | false, false, false, false, true => if v 5%nat then only PrechargeAll else mkHeard Precharge bank 0 0 0
  | false, false, false, true, false => if v 5%nat then only RefreshAll else mkHeard RefreshBank bank 0 0 0
  | false, false, false, true, true => only SelfRefresh
  | false, false, true, false, true => only Wake
  | _, _, _, _, _ => only Unknown
  end.
Definition lpddr4_pins (o : order) : nat := match o with Activate | Read _ | Write _ => 24 | _ => 12 end.

(* LPDDR5: CA0 to CA6, two beats, four for activate.  How the bank pins are read
   depends on the bank architecture: [four] bank groups, [sixteen] banks or eight. *)
Inductive banking := FourGroups | SixteenBanks | EightBanks.
Definition lpddr5_hears (k : banking) (v : nat -> bool) : heard :=
  let bank := match k with FourGroups => on v [7; 8]%nat | SixteenBanks => on v [7; 8; 9; 10]%nat | EightBanks => on v [7; 8; 9]%nat end in
  let group := match k with FourGroups => on v [9; 10]%nat | _ => 0 end in
  let ref_bank := match k with FourGroups => on v [7; 8]%nat | _ => on v [7; 8; 9]%nat end in
  let ref_group := match k with FourGroups => on v [9]%nat | _ => 0 end in
  let column := on v [11; 12; 4; 5; 6]%nat in
  match v 0%nat, v 1%nat, v 2%nat with
  | true, true, true =>
      if v 14%nat && v 15%nat && negb (v 16%nat)
      then mkHeard Activate bank group (on v [21; 22; 23; 24; 25; 26; 27; 17; 18; 19; 20; 11; 12; 13; 3; 4; 5; 6]%nat) 0
      else only Unknown
  | true, false, false => mkHeard (Read (v 13%nat)) bank group 0 column
  | false, true, true => mkHeard (Write (v 13%nat)) bank group 0 column
  | false, false, false =>
      match v 3%nat, v 4%nat, v 5%nat, v 6%nat with
      | true, true, true, true => if v 13%nat then only PrechargeAll else mkHeard Precharge bank group 0 0
      | true, true, true, false => if v 13%nat then only RefreshAll else mkHeard RefreshBank ref_bank ref_group 0 0
      | true, false, true, true => match v 12%nat, v 13%nat with
                                   | false, false => only SelfRefresh
                                   | false, true => only PowerDown
                                   | true, false => only DeepSleep
                                   | true, true => only Unknown
                                   end
      | true, false, true, false => only Wake
      | _, _, _, _ => only Unknown
      end
  | _, _, _ => only Unknown
  end.
Definition lpddr5_pins (o : order) : nat := match o with Activate => 28 | _ => 14 end.

(* LPDDR6: CA0 to CA3, four beats, eight for activate. *)
Definition lpddr6_hears (v : nat -> bool) : heard :=
  let bank := on v [12; 13]%nat in let group := on v [14; 15]%nat in
  let column := on v [5; 8; 9; 10; 11]%nat in
  match v 1%nat, v 2%nat with
  | true, true => if v 0%nat && v 4%nat && v 16%nat && v 17%nat && v 18%nat && negb (v 20%nat)
                  then mkHeard Activate bank group (on v [28; 29; 30; 31; 24; 25; 26; 27; 21; 22; 23; 8; 9; 10; 11; 5; 6]%nat) 0
                  else only Unknown
  | false, true => mkHeard (Write (v 6%nat)) bank group 0 column
  | true, false => mkHeard (Read (v 6%nat)) bank group 0 column
  | false, false =>
      if v 0%nat then only Unknown
      else match v 4%nat, v 5%nat, v 6%nat with
           | true, true, _ => if v 11%nat then only PrechargeAll else mkHeard Precharge bank group 0 0
           | true, false, false => if v 11%nat then only RefreshAll else mkHeard (RefreshPair (on v [8; 9]%nat)) bank group 0 0
           | false, true, false => only PowerDown
           | false, true, true => only Wake
           | false, false, true => if v 7%nat then only SelfRefresh else only Unknown
           | false, false, false => only Idle
           | _, _, _ => only Unknown
           end
  end.
Definition lpddr6_pins (o : order) : nat := match o with Activate => 32 | _ => 16 end.

(* What the device should hear when a command is given. *)
Section Meant.
  Variables bank group row column second : N.
  Definition ddr4_meant (t : CmdType) : list heard :=
    let b := bank mod 4 in let g := group mod 4 in let col := column / 8 mod 128 in
    match t with
    | ACT => [mkHeard Activate b g (row mod 2 ^ 18) 0]
    | PRE => [mkHeard Precharge b g 0 0]
    | PREA => [only PrechargeAll]
    | REFA | SREFEN => [only RefreshAll]
    | RD => [mkHeard (Read false) b g 0 col]
    | RDA => [mkHeard (Read true) b g 0 col]
    | WR => [mkHeard (Write false) b g 0 col]
    | WRA => [mkHeard (Write true) b g 0 col]
    | PDEA | PDEP | PDXA | PDXP => [only Deselect]
    | SREFEX => [only Deselect; only Idle]
    | _ => []
    end.
  Definition ddr5_meant (t : CmdType) : heard :=
    let b := bank mod 4 in let g := group mod 8 in let col := column / 16 mod 64 in
    match t with
    | ACT => mkHeard Activate b g (row mod 2 ^ 17) 0
    | PRE => mkHeard Precharge b g 0 0
    | PREA => only PrechargeAll
    | PRESB => mkHeard PrechargeSame b 0 0 0
    | REFA => only RefreshAll
    | REFSB => mkHeard RefreshSame b 0 0 0
    | RD => mkHeard (Read false) b g 0 col
    | RDA => mkHeard (Read true) b g 0 col
    | WR => mkHeard (Write false) b g 0 col
    | WRA => mkHeard (Write true) b g 0 col
    | SREFEN => only SelfRefresh
    | PDEA | PDEP => only PowerDown
    | PDXA | PDXP | NOP => only Idle
    | _ => only Unknown
    end.
  Definition lpddr4_meant (t : CmdType) : heard :=
    let b := bank mod 8 in let col := column / 32 mod 32 in
    match t with
    | ACT => mkHeard Activate b 0 (row mod 2 ^ 18) 0
    | PRE => mkHeard Precharge b 0 0 0
    | PREA => only PrechargeAll
    | REFA => only RefreshAll
    | REFB => mkHeard RefreshBank b 0 0 0
    | RD => mkHeard (Read false) b 0 0 col
    | RDA => mkHeard (Read true) b 0 0 col
    | WR => mkHeard (Write false) b 0 0 col
    | WRA => mkHeard (Write true) b 0 0 col
    | SREFEN => only SelfRefresh
    | SREFEX => only Wake
    | _ => only Unknown
    end.
  Definition lpddr5_meant (k : banking) (t : CmdType) : heard :=
    let b := match k with FourGroups => bank mod 4 | SixteenBanks => bank mod 16 | EightBanks => bank mod 8 end in
    let g := match k with FourGroups => group mod 4 | _ => 0 end in
    let col := column / 2 mod 32 in
    match t with
    | ACT => mkHeard Activate b g (row mod 2 ^ 18) 0
    | PRE => mkHeard Precharge b g 0 0
    | PREA => only PrechargeAll
    | REFA => only RefreshAll
    | REFB | REFP2B => mkHeard RefreshBank (match k with FourGroups => bank mod 4 | _ => bank mod 8 end) (match k with FourGroups => group mod 2 | _ => 0 end) 0 0
    | RD => mkHeard (Read false) b g 0 col
    | RDA => mkHeard (Read true) b g 0 col
    | WR => mkHeard (Write false) b g 0 col
    | WRA => mkHeard (Write true) b g 0 col
    | SREFEN => only SelfRefresh
    | PDEA | PDEP => only PowerDown
    | DSMEN => only DeepSleep
    | SREFEX | PDXA | PDXP | DSMEX => only Wake
    | _ => only Unknown
    end.
  Definition lpddr6_meant (t : CmdType) : heard :=
    let b := bank mod 4 in let g := group mod 4 in let col := column / 2 mod 32 in
    match t with
    | ACT => mkHeard Activate b g (row mod 2 ^ 17) 0
    | PRE => mkHeard Precharge b g 0 0
    | PREA => only PrechargeAll
    | REFA => only RefreshAll
    | REFDB => mkHeard (RefreshPair (second / 4 mod 4)) b g 0 0
    | RD => mkHeard (Read false) b g 0 col
    | RDA => mkHeard (Read true) b g 0 col
    | WR => mkHeard (Write false) b g 0 col
    | WRA => mkHeard (Write true) b g 0 col
    | SREFEN => only SelfRefresh
    | SREFEX => only Wake
    | PDEA | PDEP => only PowerDown
    | PDXA | PDXP | NOP => only Idle
    | _ => only Unknown
    end.
End Meant.
