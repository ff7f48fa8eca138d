(* Vocabulary for stating how far rounding moves an energy. *)
From Coq Require Import QArith Qpower Qabs ZArith NArith List Bool Arith.
From Verif Require Import Base Command CoreModel Bits StatsModel StatsSpec EnergyModel EnergySpec RoundModel.
Import ListNotations.
Local Open Scope Q_scope.

(* The standard model of floating-point arithmetic: every operation returns the
   exact result of its operands up to a relative error of at most u, and a
   number that has zero as exact result is zero. *)
Record standard_model (R : arithmetic) (u : Q) : Prop := {
  sm_add : forall a b, Qabs (r_add R a b - (a + b)) <= u * Qabs (a + b);
  sm_sub : forall a b, Qabs (r_sub R a b - (a - b)) <= u * Qabs (a - b);
  sm_mul : forall a b, Qabs (r_mul R a b - a * b) <= u * Qabs (a * b);
  sm_div : forall a b, ~ b == 0 -> Qabs (r_div R a b - a / b) <= u * Qabs (a / b);
  sm_of : forall n, Qabs (r_of R n - qn n) <= u * qn n
}.

(* Nothing in the description is negative. *)
Record nonnegative (p : espec) : Prop := {
  ng_tck : 0 <= es_tCK p;
  ng_twck : 0 <= es_tWCK p;
  ng_rho : 0 <= es_rho p /\ es_rho p <= 1;
  ng_power : forall w, In w (es_domains p) ->
    0 <= pw_v w /\ 0 <= pw_i0 w /\ 0 <= pw_i2n w /\ 0 <= pw_i3n w /\ 0 <= pw_i2p w /\ 0 <= pw_i3p w /\ 0 <= pw_i4r w /\ 0 <= pw_i4w w /\
    0 <= pw_i5 w /\ 0 <= pw_i5s w /\ 0 <= pw_i6 w /\ 0 <= pw_i6ds w /\ 0 <= pw_ibeta w
}.

(* How large the terms are that the currents are made of, when the ones
   subtracted are added instead. *)
Definition duration (p : espec) (n : N) : Q := qn n * es_tCK p.
Definition size_rho (p : espec) (w : power) : Q :=
  match es_std p with
  | DDR4 | DDR5 => es_rho p * (pw_i3n w + pw_i2n w) + pw_i2n w
  | _ => (qnat (es_banks p) * es_rho p * pw_i3n w + (1 - es_rho p) * pw_i2n w) / (qnat (es_banks p) * es_rho p + (1 - es_rho p))
  end.
Definition size_theta (p : espec) (w : power) : Q :=
  (pw_i0 w * (duration p (es_tRP p) + duration p (es_tRAS p)) + pw_ibeta w * duration p (es_tRP p)) / duration p (es_tRAS p).
Definition size_1 (p : espec) (w : power) : Q :=
  match es_std p with
  | DDR4 | DDR5 => (pw_i3n w + (qnat (es_banks p) - 1) * size_rho p w) / qnat (es_banks p)
  | _ => pw_i3n w
  end.
Definition size_B (p : espec) (w : power) : Q :=
  match es_std p with DDR4 | DDR5 => pw_i3n w | _ => size_rho p w + qnat (es_banks p) * (size_1 p w + size_rho p w) end.
Definition size_BG (p : espec) (w : power) : Q := size_rho p w + (size_1 p w + size_rho p w) * qnat (es_groups p).
Definition size_2 (p : espec) (w : power) : Q := size_1 p w + (size_1 p w + size_rho p w).
Definition size_5 (p : espec) (w : power) : Q :=
  (pw_i5s w * (duration p (es_tREFI p) / 8) + pw_i2n w * (duration p (es_tREFI p) / 8 + duration p (es_tRFCs p))) / duration p (es_tRFCs p).
Definition size_burst (p : espec) (w : power) : Q :=
  match es_std p with DDR4 | DDR5 => size_B p w | LPDDR4 => size_1 p w | LPDDR5 => if es_mbg p then size_2 p w else size_1 p w | LPDDR6 => size_2 p w end.
Definition burst_clock (p : espec) : Q := match es_std p with LPDDR5 | LPDDR6 => es_tWCK p | _ => es_tCK p end.
(* Reads of DDR take the quotient burst length / data rate as it is, everything
   else rounds it down. *)
Definition beats (p : espec) (read : bool) : Q :=
  match es_std p with DDR4 | DDR5 => if read then qn (es_bl p) / qn (es_dr p) else qn (es_bl p / es_dr p) | _ => qn (es_bl p / es_dr p) end.

(* The same for the energies of one bank: voltage times a sum of currents times
   a time times a number of commands. *)
Definition size_info (p : espec) (w : power) (k r : cycle_stats) : energy_info :=
  let c := cs_counter k in
  let V := pw_v w in
  let pre n := V * (pw_ibeta w + pw_i2n w) * duration p (es_tRP p) * qn n in
  let burst read I4 n := V * (I4 + size_burst p w) * beats p read * burst_clock p * qn n in
  let std := es_std p in
  mkEI
    (V * (size_theta p w + size_1 p w) * duration p (es_tRAS p) * qn (cs_act c))
    (pre (cs_pre c))
    (V * (size_1 p w + size_rho p w) * duration p (cy_act (cs_cycles k)))
    (V * pw_i2n w * duration p (cy_pre (cs_cycles r)) / qnat (es_banks p))
    (burst true (pw_i4r w) (cs_reads c)) (burst false (pw_i4w w) (cs_writes c)) (burst true (pw_i4r w) (cs_readAuto c)) (burst false (pw_i4w w) (cs_writeAuto c))
    (pre (cs_readAuto c)) (pre (cs_writeAuto c))
    (V * (pw_i5 w + size_B p w) * duration p (es_tRFC p) * qn (cs_refAllBank c) / qnat (es_banks p))
    match std with LPDDR4 | LPDDR5 => V * (size_5 p w + size_1 p w) * duration p (es_tRFCs p) * qn (cs_refPerBank c) | _ => 0 end
    match std with DDR5 => V * (pw_i5s w + size_BG p w) * duration p (es_tRFCs p) * qn (cs_refSameBank c) / qnat (es_groups p) | _ => 0 end
    match std with LPDDR5 => V * (size_5 p w + size_2 p w) * duration p (es_tRFCs p) * qn (cs_refPerTwoBanks c) / 2 | _ => 0 end
    match std with LPDDR6 => V * (size_5 p w + size_2 p w) * duration p (es_tRFCs p) * qn (cs_refDualBanks c) / 2 | _ => 0 end.
Definition size_bank (p : espec) (w : power) (k r : cycle_stats) : Q := qsum (comp_at (size_info p w k r)) counted.
(* And for the states of a rank. *)
Definition size_rank (p : espec) (w : power) (r : cycle_stats) : Q :=
  let y := cs_cycles r in
  pw_v w * qnat (es_devices p) *
  (size_rho p w * duration p (cy_act y) + pw_i3p w * duration p (cy_pda y) + pw_i2p w * duration p (cy_pdp y) + pw_i6 w * duration p (cy_sref y) +
   match es_std p with LPDDR5 | LPDDR6 => pw_i6ds w * duration p (cy_dsm y) | _ => 0 end).
(* And for the energy of the memory: every device of every rank, in every
   voltage domain. *)
Definition size_of_rank (p : espec) (w : power) (st : sim_stats) (i : nat) : Q :=
  match nth_error (ss_rank st) i with
  | Some r =>
      qsum (fun _ => qsum (fun b => match nth_error (ss_bank st) (i * es_banks p + b) with Some k => size_bank p w k r | None => 0 end) (seq 0 (es_banks p))) (seq 0 (es_devices p)) +
      size_rank p w r
  | None => 0
  end.
Definition size_of_energy (p : espec) (st : sim_stats) : Q :=
  qsum (fun w => qsum (size_of_rank p w st) (seq 0 (es_ranks p))) (es_domains p).

(* How many roundings a term of the total goes through, at most. *)
Definition roundings (p : espec) : nat :=
  (48 + length (es_domains p) * (es_ranks p + 1) + es_banks p * es_ranks p * es_devices p)%nat.

(* Rounding to 53 significant bits, to the nearest number and to the even one of
   two equally near: IEEE 754 double precision, with an unbounded exponent. *)
(* Some e with 2^e <= q < 2^(e+1), for q > 0. *)
Definition exponent (q : Q) : Z :=
  let e := (Z.log2 (Qnum q) - Z.log2 (Zpos (Qden q)))%Z in
  if Qle_bool (inject_Z 2 ^ e) q then e else (e - 1)%Z.
(* The integer nearest to q. *)
Definition nearest (q : Q) : Z :=
  let d := (Qnum q / Zpos (Qden q))%Z in
  let r := (Qnum q mod Zpos (Qden q))%Z in
  if (2 * r <? Zpos (Qden q))%Z then d
  else if (Zpos (Qden q) <? 2 * r)%Z then (d + 1)%Z
  else if Z.even d then d else (d + 1)%Z.
Definition round_pos (q : Q) : Q :=
  let k := (52 - exponent q)%Z in inject_Z (nearest (q * inject_Z 2 ^ k)) * inject_Z 2 ^ (- k).
Definition round53 (q : Q) : Q :=
  match Qnum q with Z0 => 0 | Zpos _ => round_pos q | Zneg _ => - round_pos (- q) end.
Definition double_arithmetic : arithmetic :=
  mkArith (fun a b => round53 (a + b)) (fun a b => round53 (a - b)) (fun a b => round53 (a * b)) (fun a b => round53 (a / b)) (fun n => round53 (qn n)).
Definition exact_arithmetic : arithmetic := mkArith Qplus Qminus Qmult Qdiv qn.
(* A number with 53 significant bits. *)
Definition has_53_bits (x : Q) : Prop := exists m k : Z, (Z.abs m <= 2 ^ 53)%Z /\ x == inject_Z m * inject_Z 2 ^ k.
(* Half the distance between 1 and the next number with 53 bits. *)
Definition u53 : Q := 1 # (2 ^ 53).
