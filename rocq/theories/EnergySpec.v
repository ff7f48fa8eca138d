(* Vocabulary for stating facts about energies, independent of the formulas. *)
From Coq Require Import QArith NArith List Bool Arith.
From Verif Require Import Base Command CoreModel Bits StatsModel StatsSpec EnergyModel.
Import ListNotations.
Local Open Scope Q_scope.

(* Sum over a list. *)
Definition qsum {A} (f : A -> Q) (l : list A) : Q := fold_right (fun x s => f x + s) 0 l.
Definition qnat (n : nat) : Q := inject_Z (Z.of_nat n).

(* The named components of the energy of one bank. *)
Inductive component := CAct | CPre | CBgAct | CBgPre | CRd | CWr | CRda | CWra | CPreRda | CPreWra | CRefAB | CRefPB | CRefSB | CRef2B | CRefDB.
Definition comp_at (e : energy_info) (c : component) : Q :=
  match c with
  | CAct => e_act e | CPre => e_pre e | CBgAct => e_bg_act e | CBgPre => e_bg_pre e | CRd => e_rd e | CWr => e_wr e | CRda => e_rda e | CWra => e_wra e
  | CPreRda => e_pre_rda e | CPreWra => e_pre_wra e | CRefAB => e_ref_ab e | CRefPB => e_ref_pb e | CRefSB => e_ref_sb e | CRef2B => e_ref_2b e | CRefDB => e_ref_db e
  end.
(* Every component except the two that only repeat the precharges already in CPre. *)
Definition counted : list component := [CAct; CPre; CBgAct; CBgPre; CRd; CWr; CRda; CWra; CRefAB; CRefPB; CRefSB; CRef2B; CRefDB].

(* Every number in an energy record. *)
Inductive eplace := Slot (j : nat) (c : component) | Shared | PDNA | PDNP | SRef | DSM | RefAB.
Definition energy_at (e : energy) (x : eplace) : option Q :=
  match x with
  | Slot j c => match nth_error (en_bank e) j with Some i => Some (comp_at i c) | None => None end
  | Shared => Some (en_shared e) | PDNA => Some (en_pdna e) | PDNP => Some (en_pdnp e) | SRef => Some (en_sref e) | DSM => Some (en_dsm e) | RefAB => Some (en_refab e)
  end.

(* c is a + b number by number, and all three have the same slots. *)
Definition is_sum (a b c : energy) : Prop :=
  forall x, match energy_at a x, energy_at b x, energy_at c x with
  | Some p, Some q, Some r => r == p + q
  | None, None, None => True
  | _, _, _ => False
  end.
(* Every number of a is at most the same number of b. *)
Definition at_most (a b : energy) : Prop :=
  forall x, match energy_at a x, energy_at b x with Some p, Some q => p <= q | None, None => True | _, _ => False end.
Definition all_numbers (P : Q -> Prop) (e : energy) : Prop := forall x q, energy_at e x = Some q -> P q.

(* Adding the two statistics wraps no counter. *)
Definition no_wrap (a b : sim_stats) : Prop := forall x, (count_at a x + count_at b x < two64)%N.
(* Every counter of a is at most the same counter of b. *)
Definition counts_le (a b : sim_stats) : Prop := forall x, (count_at a x <= count_at b x)%N.
Definition all_zero (s : sim_stats) : Prop := forall x, count_at s x = 0%N.

(* The slot of a bank of a device of a rank. *)
Definition slot (p : espec) (r d b : nat) : nat := (r * es_devices p * es_banks p + d * es_banks p + b)%nat.

(* The background current of a device as a function of how many of its banks
   are active: it grows by the same amount with every bank; with none active it
   lies, by the factor rho, between the precharge standby current and the
   current with all banks active; and the active standby current of the data
   sheet is the one with all banks active (DDR) or with one bank active
   (LPDDR). *)
Definition background (p : espec) (w : power) (I : Q -> Q) : Prop :=
  (forall n, I n == I 0 + n * (I 1 - I 0)) /\
  I 0 == es_rho p * (I (qnat (es_banks p)) - pw_i2n w) + pw_i2n w /\
  match es_std p with
  | DDR4 | DDR5 => I (qnat (es_banks p)) == pw_i3n w
  | _ => I 1 == pw_i3n w
  end.
(* How many banks are active while the data sheet measures reads and writes. *)
Definition banks_in_burst (p : espec) : nat :=
  match es_std p with
  | DDR4 | DDR5 => es_banks p
  | LPDDR4 => 1
  | LPDDR5 => if es_mbg p then 2 else 1
  | LPDDR6 => 2
  end.

(* The ordering of currents of a data sheet. *)
Record sane_domain (p : espec) (w : power) (I : Q -> Q) : Prop := {
  sd_v : 0 <= pw_v w;
  sd_2n : 0 <= pw_i2n w;
  sd_3n : pw_i2n w <= pw_i3n w;
  sd_0 : pw_i3n w <= pw_i0 w;
  sd_beta : pw_i2n w <= pw_ibeta w /\ pw_ibeta w <= pw_i0 w;
  sd_sleep : 0 <= pw_i2p w /\ 0 <= pw_i3p w /\ 0 <= pw_i6 w /\ 0 <= pw_i6ds w;
  sd_4 : I (qnat (banks_in_burst p)) <= pw_i4r w /\ I (qnat (banks_in_burst p)) <= pw_i4w w;
  sd_5 : I (qnat (es_banks p)) <= pw_i5 w;
  sd_5s : match es_std p with
    | DDR4 => True
    | DDR5 => I (qnat (es_groups p)) <= pw_i5s w
    | LPDDR4 => pw_i2n w * (t_refi p / 8 - t_rfcs p) + I 1 * t_rfcs p <= pw_i5s w * (t_refi p / 8)
    | LPDDR5 | LPDDR6 => pw_i2n w * (t_refi p / 8 - t_rfcs p) + I 2 * t_rfcs p <= pw_i5s w * (t_refi p / 8)
    end
}.
Record sane (p : espec) : Prop := {
  sn_tck : 0 <= es_tCK p;
  sn_twck : 0 <= es_tWCK p;
  sn_rho : 0 <= es_rho p /\ es_rho p <= 1;
  sn_domains : forall w, In w (es_domains p) -> exists I, background p w I /\ sane_domain p w I
}.

(* Enough entries for the ranks and banks of the memory. *)
Definition covers (p : espec) (s : sim_stats) : Prop :=
  (es_ranks p * es_banks p <= length (ss_bank s))%nat /\ (es_ranks p <= length (ss_rank s))%nat.

(* The divisors are not zero. *)
Record well_formed (p : espec) : Prop := {
  wf_dr : es_dr p <> 0%N;
  wf_banks : es_banks p <> 0%nat;
  wf_tck : ~ es_tCK p == 0;
  wf_tras : es_tRAS p <> 0%N;
  wf_std : match es_std p with
    | DDR4 => True
    | DDR5 => es_groups p <> 0%nat
    | LPDDR4 | LPDDR5 | LPDDR6 => es_tRFCs p <> 0%N /\ ~ qnat (es_banks p) * es_rho p + (1 - es_rho p) == 0
    end
}.

(* ------------------------------------------------------------------ *)
(* The measurement loops of a data sheet                               *)
(* ------------------------------------------------------------------ *)
(* A rank's statistics with only command counters, or only times. *)
Definition only (k : cstats) (y : cycles) : cycle_stats := mkCS k y pp_zero.
Definition nothing : cycle_stats := only cs_zero cy_zero.
(* Every rank of the memory does the same: k banks show x, the others nothing. *)
Definition loop_stats (p : espec) (k : nat) (x r : cycle_stats) : sim_stats :=
  mkSim stats0 stats0 stats0 stats0 stats0 stats0 stats0 stats0 stats0 stats0 stats0
    (concat (repeat (repeat x k ++ repeat nothing (es_banks p - k)) (es_ranks p))) (repeat r (es_ranks p)).
Definition burst_time (p : espec) : Q := qn (es_bl p) / qn (es_dr p) * match es_std p with LPDDR5 | LPDDR6 => es_tWCK p | _ => es_tCK p end.

(* measurement p k x r I T: while the data sheet measures current I for time T,
   k banks of each rank show statistics x and the rank itself r. *)
Inductive measurement (p : espec) : nat -> cycle_stats -> cycle_stats -> (power -> Q) -> Q -> Prop :=
| M_IDD0 n : (* one bank is opened for tRAS and closed for tRP, over and over *)
    measurement p 1 (only (mkCstats n n 0 0 0 0 0 0 0 0 0) (mkCycles (n * es_tRAS p) 0 0 0 0 0)) (only cs_zero (mkCycles (n * es_tRAS p) (n * es_tRP p) 0 0 0 0))
      pw_i0 (qn (n * (es_tRAS p + es_tRP p)) * es_tCK p)
| M_IDD2N n : measurement p 0 nothing (only cs_zero (mkCycles 0 n 0 0 0 0)) pw_i2n (qn n * es_tCK p)
| M_IDD3N n : (* all banks open (DDR), one bank open (LPDDR) *)
    measurement p (match es_std p with DDR4 | DDR5 => es_banks p | _ => 1%nat end) (only cs_zero (mkCycles n 0 0 0 0 0)) (only cs_zero (mkCycles n 0 0 0 0 0))
      pw_i3n (qn n * es_tCK p)
| M_IDD2P n : measurement p 0 nothing (only cs_zero (mkCycles 0 0 0 n 0 0)) pw_i2p (qn n * es_tCK p)
| M_IDD3P n : measurement p 0 nothing (only cs_zero (mkCycles 0 0 n 0 0 0)) pw_i3p (qn n * es_tCK p)
| M_IDD6 n : measurement p 0 nothing (only cs_zero (mkCycles 0 0 0 0 n 0)) pw_i6 (qn n * es_tCK p)
| M_IDD6DS n : es_std p = LPDDR5 \/ es_std p = LPDDR6 -> measurement p 0 nothing (only cs_zero (mkCycles 0 0 0 0 0 n)) pw_i6ds (qn n * es_tCK p)
| M_IDD4R m n : (* back to back reads of the open banks *)
    match es_std p with DDR4 | DDR5 => True | _ => (es_bl p mod es_dr p = 0)%N end ->
    qn n * es_tCK p == qnat (banks_in_burst p) * qn m * burst_time p ->
    measurement p (banks_in_burst p) (only (mkCstats 0 0 m 0 0 0 0 0 0 0 0) (mkCycles n 0 0 0 0 0)) (only cs_zero (mkCycles n 0 0 0 0 0)) pw_i4r (qn n * es_tCK p)
| M_IDD4W m n :
    (es_bl p mod es_dr p = 0)%N ->
    qn n * es_tCK p == qnat (banks_in_burst p) * qn m * burst_time p ->
    measurement p (banks_in_burst p) (only (mkCstats 0 0 0 m 0 0 0 0 0 0 0) (mkCycles n 0 0 0 0 0)) (only cs_zero (mkCycles n 0 0 0 0 0)) pw_i4w (qn n * es_tCK p)
| M_IDD5 n : (* all banks refreshed together, over and over *)
    measurement p (es_banks p) (only (mkCstats 0 0 0 0 n 0 0 0 0 0 0) (mkCycles (n * es_tRFC p) 0 0 0 0 0)) (only cs_zero (mkCycles (n * es_tRFC p) 0 0 0 0 0))
      pw_i5 (qn (n * es_tRFC p) * es_tCK p)
| M_IDD5C n : (* the same bank of every group *)
    es_std p = DDR5 ->
    measurement p (es_groups p) (only (mkCstats 0 0 0 0 0 0 0 0 n 0 0) (mkCycles (n * es_tRFCs p) 0 0 0 0 0)) (only cs_zero (mkCycles (n * es_tRFCs p) 0 0 0 0 0))
      pw_i5s (qn (n * es_tRFCs p) * es_tCK p)
| M_IDD5PB n i : (* one bank every tREFI/8, precharge standby in between *)
    es_std p = LPDDR4 \/ es_std p = LPDDR5 -> (es_tREFI p = 8 * (es_tRFCs p + i))%N ->
    measurement p 1 (only (mkCstats 0 0 0 0 0 n 0 0 0 0 0) (mkCycles (n * es_tRFCs p) 0 0 0 0 0)) (only cs_zero (mkCycles (n * es_tRFCs p) (n * i) 0 0 0 0))
      pw_i5s (qn (n * (es_tRFCs p + i)) * es_tCK p)
| M_IDD5P2B n i : (* two banks every tREFI/8 *)
    es_std p = LPDDR5 -> (es_tREFI p = 8 * (es_tRFCs p + i))%N ->
    measurement p 2 (only (mkCstats 0 0 0 0 0 0 n 0 0 0 0) (mkCycles (n * es_tRFCs p) 0 0 0 0 0)) (only cs_zero (mkCycles (n * es_tRFCs p) (n * i) 0 0 0 0))
      pw_i5s (qn (n * (es_tRFCs p + i)) * es_tCK p)
| M_IDD5DB n i :
    es_std p = LPDDR6 -> (es_tREFI p = 8 * (es_tRFCs p + i))%N ->
    measurement p 2 (only (mkCstats 0 0 0 0 0 0 0 n 0 0 0) (mkCycles (n * es_tRFCs p) 0 0 0 0 0)) (only cs_zero (mkCycles (n * es_tRFCs p) (n * i) 0 0 0 0))
      pw_i5s (qn (n * (es_tRFCs p + i)) * es_tCK p).
