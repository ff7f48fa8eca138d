(* What a memory description has to look like, and what the parts of a DRAM object
   should take from it.  From MemSpecModel only the records are used. *)
From Coq Require Import NArith QArith List Bool.
From Verif Require Import Base Command CoreModel Bits PatternTables EnergyModel IfEnergyModel ToggleModel InterfaceModel DramModel MemSpecModel.
Import ListNotations.
Local Open Scope N_scope.

(* ---- partial array self refresh ---- *)

(* The pictures of the comments in L4 95-171: which of eight banks are refreshed
   in a mode; every mode beyond the seventh refreshes all. *)
Definition pasr_picture (mode : N) : list bool :=
  match mode with
  | 1 => [true; true; true; true; false; false; false; false]
  | 2 => [true; true; false; false; false; false; false; false]
  | 3 => [true; false; false; false; false; false; false; false]
  | 4 => [false; false; true; true; true; true; true; true]
  | 5 => [false; false; false; false; true; true; true; true]
  | 6 => [false; false; false; false; false; false; true; true]
  | 7 => [false; false; false; false; false; false; false; true]
  | _ => repeat true 8
  end.
(* How many banks of eight are left out. *)
Definition left_out (mode : N) : nat := length (filter negb (pasr_picture mode)).
(* The mode a description asks for, if it asks for partial refresh. *)
Definition asks_pasr (w : raw) : option N :=
  match rw_bankwise w with
  | Some (mkRawBw _ _ (Some true) m) => Some match m with Some (PasrMode n) => n | _ => 0 end
  | _ => None
  end.

(* ---- descriptions that can be constructed ---- *)

(* Nothing is divided by zero. *)
Definition divisors_ok (w : raw) : Prop :=
  (rw_std w <> DDR4 -> rw_groups w <> 0) /\
  match rw_std w with
  | DDR4 | DDR5 => rw_dr w <> 0
  | LPDDR4 => True
  | LPDDR5 | LPDDR6 => (rw_dr w * rw_wck w) mod two64 <> 0
  end.
(* No more banks are left out of a refresh than there are. *)
Definition pasr_ok (w : raw) : Prop :=
  rw_std w = LPDDR4 -> forall mode, asks_pasr w = Some mode -> N.of_nat (left_out mode) <= rw_banks w.

(* ---- times ---- *)

(* Clock cycles a burst takes. *)
Definition burst_clocks (w : raw) : N :=
  match rw_std w with
  | LPDDR5 | LPDDR6 => rw_bl w / (rw_dr w * rw_wck w)
  | _ => rw_bl w / rw_dr w
  end.
(* From a read or write with auto-precharge to the precharge. *)
Definition read_to_precharge (w : raw) : N :=
  match rw_std w with
  | DDR4 => rw_al w + rw_rtp w
  | DDR5 => rw_rtp w
  | LPDDR4 => (if rw_bl w =? 16 then 0 else 8) + rw_rtp w
  | LPDDR5 | LPDDR6 => burst_clocks w + rw_rtp w
  end.
Definition write_to_precharge (w : raw) : N :=
  match rw_std w with
  | DDR4 | DDR5 => rw_wl w + burst_clocks w + rw_wr w
  | LPDDR4 => rw_wl w + rw_bl w / 2 + rw_wr w + 1
  | LPDDR5 | LPDDR6 => rw_wl w + burst_clocks w + rw_wr w + 1
  end.

(* ---- refresh modes ---- *)

(* A mode chooses a refresh time, and in every domain a current, together. *)
Inductive refresh_choice := Normal | Half | Quarter.
Definition chosen (w : raw) : refresh_choice :=
  match rw_mode w with
  | Ref2 => match rw_std w with DDR4 | DDR5 => Half | _ => Normal end
  | Ref4 => match rw_std w with DDR4 => Quarter | _ => Normal end
  | _ => Normal
  end.
Definition choice_time (c : refresh_choice) (w : raw) : N := match c with Normal => rw_rfc1 w | Half => rw_rfc2 w | Quarter => rw_rfc4 w end.
Definition choice_current (c : refresh_choice) (d : raw_power) : Q := match c with Normal => rw_i5 d | Half => rw_i5f2 d | Quarter => rw_i5f4 d end.

(* ---- bank architectures of LPDDR5 ---- *)

(* 16 banks without groups or in 4 groups, or 8 banks without groups. *)
Definition known_layout (w : raw) : Prop :=
  (rw_banks w = 16 /\ (rw_groups w = 0 \/ rw_groups w = 1 \/ rw_groups w = 4)) \/ (rw_banks w = 8 /\ (rw_groups w = 0 \/ rw_groups w = 1)).
(* The description with 16 banks that are not grouped. *)
Definition as_16_banks (w : raw) : raw :=
  mkRaw (rw_std w) 16 (rw_rows w) (rw_columns w) (rw_devices w) (rw_bl w) (rw_dr w) (rw_width w) 1 (rw_ranks w) (rw_mode w) (rw_wck_on w)
    (rw_tCK w) (rw_wck w) (rw_ras w) (rw_rcd w) (rw_rcdw w) (rw_rtp w) (rw_wl w) (rw_wr w) (rw_rp w) (rw_al w)
    (rw_rfc1 w) (rw_rfc2 w) (rw_rfc4 w) (rw_rfcs w) (rw_refi w) (rw_domains w) (rw_vddq w) (rw_bankwise w) (rw_imp w) (rw_ambles w) (rw_rates w).
(* A core's description without the number of banks in a group. *)
Definition without_group_size (p : memspec) : memspec :=
  mkMemspec (ms_std p) (ms_ranks p) (ms_banks p) (ms_groups p) 0 (ms_tRAS p) (ms_tRP p) (ms_tRCD p) (ms_tRCDW p) (ms_tRFC p)
    (ms_tRFCsb p) (ms_tRFCPB p) (ms_tRFCDB p) (ms_offRD p) (ms_offWR p) (ms_p2bOffset p) (ms_m8b p).

(* ---- what has no effect ---- *)

(* The same description but for rows, columns, the rates of the command and data
   bus and the parameters of partial self refresh. *)
Definition strip_bankwise (b : option raw_bankwise) : option Q := match b with Some x => rb_rho x | None => None end.
Record same_but (w w' : raw) : Prop := {
  sb_std : rw_std w = rw_std w'; sb_banks : rw_banks w = rw_banks w'; sb_devices : rw_devices w = rw_devices w'; sb_bl : rw_bl w = rw_bl w'; sb_dr : rw_dr w = rw_dr w';
  sb_width : rw_width w = rw_width w'; sb_groups : rw_groups w = rw_groups w'; sb_ranks : rw_ranks w = rw_ranks w'; sb_mode : rw_mode w = rw_mode w'; sb_wck_on : rw_wck_on w = rw_wck_on w';
  sb_times : (rw_tCK w, rw_wck w, rw_ras w, rw_rcd w, rw_rcdw w, rw_rtp w, rw_wl w, rw_wr w, rw_rp w, rw_al w, rw_rfc1 w, rw_rfc2 w, rw_rfc4 w, rw_rfcs w, rw_refi w) =
    (rw_tCK w', rw_wck w', rw_ras w', rw_rcd w', rw_rcdw w', rw_rtp w', rw_wl w', rw_wr w', rw_rp w', rw_al w', rw_rfc1 w', rw_rfc2 w', rw_rfc4 w', rw_rfcs w', rw_refi w');
  sb_power : rw_domains w = rw_domains w' /\ rw_vddq w = rw_vddq w' /\ rw_imp w = rw_imp w' /\ rw_ambles w = rw_ambles w';
  sb_factor : strip_bankwise (rw_bankwise w) = strip_bankwise (rw_bankwise w');
  sb_dqs : option_map rr_dqs (rw_rates w) = option_map rr_dqs (rw_rates w') \/ option_map rr_dqs (rw_rates w) = Some 2 /\ rw_rates w' = None
}.

(* ---- what the parts need ---- *)

(* The interface of a description can be constructed: a data bus of at most 4096
   lines, whole bytes of them where inversion pins are attached to bytes; toggling
   rates are fractions. *)
Definition fraction (q : Q) : Prop := (0 <= q /\ q <= 1)%Q.
Definition good_toggle (d : toggle_def) : Prop :=
  fraction (td_read_rate d) /\ fraction (td_read_duty d) /\ fraction (td_write_rate d) /\ fraction (td_write_duty d) /\
  td_read_idle d <> TogInvalid /\ td_write_idle d <> TogInvalid.
Definition interface_possible (p : ifspec) (sim : option toggle_def) : Prop :=
  let lines := (fi_bits p * fi_devices p) mod two64 in
  0 < lines /\ lines <= 4096 /\ 0 < fi_rate p /\
  match sim with Some d => good_toggle d | None => True end /\
  match fi_std p with
  | DDR4 | LPDDR4 => lines mod 8 = 0
  | LPDDR5 => lines mod 8 = 0 /\ fi_wck p <> 0
  | LPDDR6 => fi_wck p <> 0
  | DDR5 => True
  end.
(* The sizes of a description the parts can work with. *)
Record sound (w : raw) : Prop := {
  so_div : divisors_ok w;
  so_pasr : pasr_ok w;
  so_banks : 0 < rw_banks w;
  so_groups : rw_std w = DDR5 -> (rw_groups w | rw_banks w);
  so_rate : 0 < rw_dr w;
  so_tck : ~ (rw_tCK w == 0)%Q;
  so_ras : rw_ras w <> 0;
  so_lpddr : match rw_std w with LPDDR4 | LPDDR5 | LPDDR6 => rw_rfcs w <> 0 | _ => True end;
  so_rho : forall q, strip_bankwise (rw_bankwise w) = Some q -> (0 <= q)%Q;
  so_lines : 0 < rw_width w /\ rw_width w * N.max 1 (rw_devices w) <= 4096;
  so_bytes : match rw_std w with DDR4 | LPDDR4 | LPDDR5 => (rw_width w * N.max 1 (rw_devices w)) mod 8 = 0 | _ => True end;
  so_burst : rw_bl w * 4096 < two64;
  so_groups6 : rw_std w = LPDDR6 -> rw_groups w = 4
}.

(* ---- what is taken ---- *)

(* The currents of a voltage domain. *)
Record currents_of (w : raw) (d : raw_power) (x : power) : Prop := {
  co_v : pw_v x = rw_v d; co_0 : pw_i0 x = rw_i0 d; co_2n : pw_i2n x = rw_i2n d; co_3n : pw_i3n x = rw_i3n d;
  co_2p : pw_i2p x = rw_i2p d; co_3p : pw_i3p x = rw_i3p d; co_4r : pw_i4r x = rw_i4r d; co_4w : pw_i4w x = rw_i4w d;
  co_5 : pw_i5 x = choice_current (chosen w) d; co_5s : pw_i5s x = rw_i5s d; co_6 : pw_i6 x = rw_i6 d; co_6ds : pw_i6ds x = rw_i6ds d;
  co_beta : pw_ibeta x = match rw_ibeta d with Some i => i | None => rw_i0 d end
}.
(* The core and the energy calculation of the core. *)
Record core_takes (w : raw) (c : memspec) (e : espec) : Prop := {
  ct_std : ms_std c = rw_std w /\ es_std e = rw_std w;
  ct_ranks : ms_ranks c = N.to_nat (rw_ranks w) /\ es_ranks e = N.to_nat (rw_ranks w);
  ct_devices : es_devices e = N.to_nat (N.max 1 (rw_devices w));
  ct_banks : rw_std w <> LPDDR5 -> ms_banks c = N.to_nat (rw_banks w) /\ es_banks e = N.to_nat (rw_banks w);
  ct_groups : rw_std w <> LPDDR5 -> ms_groups c = N.to_nat (rw_groups w) /\ es_groups e = N.to_nat (rw_groups w);
  ct_ras : ms_tRAS c = rw_ras w /\ es_tRAS e = rw_ras w;
  ct_rp : ms_tRP c = rw_rp w /\ es_tRP e = rw_rp w;
  ct_rcd : ms_tRCD c = rw_rcd w /\ ms_tRCDW c = rw_rcdw w;
  ct_rfc : ms_tRFC c = choice_time (chosen w) w /\ es_tRFC e = choice_time (chosen w) w;
  ct_rfcs : ms_tRFCsb c = rw_rfcs w /\ ms_tRFCPB c = rw_rfcs w /\ ms_tRFCDB c = rw_rfcs w /\ es_tRFCs e = rw_rfcs w;
  ct_refi : es_tREFI e = rw_refi w;
  ct_clock : es_tCK e = rw_tCK w /\ (rw_wck w <> 0%N -> es_tWCK e * inject_Z (Z.of_N (rw_wck w)) == rw_tCK w)%Q;
  ct_burst : es_bl e = rw_bl w /\ es_dr e = rw_dr w;
  ct_rho : es_rho e = match strip_bankwise (rw_bankwise w) with Some q => q | None => 1%Q end;
  ct_power : Forall2 (currents_of w) (rw_domains w) (es_domains e)
}.
(* The interface and its energy calculation. *)
Record interface_takes (w : raw) (i : ifspec) (e : ispec) : Prop := {
  it_std : fi_std i = rw_std w /\ is_std e = rw_std w;
  it_rate : fi_rate i = rw_dr w /\ is_dr e = rw_dr w;
  it_burst : fi_burst i = rw_bl w;
  it_width : fi_bits i = rw_width w /\ is_width e = rw_width w;
  it_devices : fi_devices i = N.max 1 (rw_devices w);
  it_ranks : fi_ranks i = N.to_nat (rw_ranks w);
  it_wck : fi_wck i = rw_wck w /\ fi_wck_on i = rw_wck_on w;
  it_dqs : let dqs := match rw_rates w with Some r => rr_dqs r | None => 2 end in fi_dqs i = dqs /\ is_dqs_rate e = dqs;
  it_clock : is_tCK e = rw_tCK w /\ (rw_wck w <> 0%N -> is_tWCK e * inject_Z (Z.of_N (rw_wck w)) == rw_tCK w)%Q;
  it_volt : is_vddq e = rw_vddq w /\ is_imp e = rw_imp w /\ is_ambles e = rw_ambles w;
  it_groups : rw_std w = LPDDR6 -> fi_groups i = rw_groups w
}.
