(* Concrete DRAM objects for the examples and the witnesses of refutations. *)
From Coq Require Import NArith QArith List Bool Lia.
From Verif Require Import Base Command CoreModel Bits HistorySpec BusModel StatsModel StatsSpec EnergyModel IfEnergyModel IfEnergyMore EnergyExamples InterfaceModel InterfaceSpec InterfaceExamples AmbleSpec DramModel DramSpec.
Import ListNotations.
Local Open Scope N_scope.

(* One rank of 16 banks. *)
Definition ex_dspec (s : standard) : dspec :=
  mkDspec (mkMemspec s 1 16 4 4 20 10 8 8 100 60 60 60 8 12 8 false) (spec_of_std s) None
          (mkEspec s 1 1 16 4 (fi_burst (spec_of_std s)) (fi_rate (spec_of_std s)) (125#100) (3125#10000) 20 10 100 60 3120 (3#10) true [ex_vdd2h])
          (ex_ispec s true).
Lemma ex_views s : views_agree (ex_dspec s).
Proof. split; try (split; destruct s; reflexivity); destruct s; reflexivity. Qed.

(* A day with queries in between, a command for the core alone and one for the
   interface alone. *)
Definition burst_row (s : standard) : list N := match s with LPDDR6 => long_row | LPDDR5 => row2 | _ => row1 end.
Definition dram_day (s : standard) : list use :=
  [Both (cmd_at 0 ACT 0 3 0 []); Ask 10; Both (cmd_at 20 RD 0 0 9 (burst_row s)); Iface (SetDbi true); Both (cmd_at 60 WRA 0 0 9 (burst_row s)); Ask 130;
   CoreOnly (cmd_at 150 ACT 4 0 0 []); Iface (Do (cmd_at 150 PREA 0 0 0 [])); Both (cmd_at 180 PRE 4 0 0 []); Both (cmd_at 200 END_OF_SIMULATION 0 0 0 [])].
Definition dram_after (p : dspec) (us : list use) (t : N) : option (dram * sim_stats) :=
  match dram_new p with
  | Value d => match uses_run p us d with
               | Returned d1 => match dram_window p t d1 with Returned x => Some x | _ => None end
               | _ => None
               end
  | Fails _ => None
  end.
Lemma dram_after_runs p us t x : dram_after p us t = Some x -> exists d0 d, dram_new p = Value d0 /\ uses_run p us d0 = Returned d /\ dram_window p t d = Returned x.
Proof.
  unfold dram_after. destruct (dram_new p) as [d0|]; [|discriminate]. destruct (uses_run p us d0) as [d| |] eqn:R; try discriminate.
  destruct (dram_window p t d) as [y| |] eqn:W; try discriminate. intros E. injection E as <-. exists d0, d. repeat split; assumption.
Qed.
Definition sums_of (st : sim_stats) : N * N * N := (ones (ss_commandBus st), ones (ss_readBus st), match ss_bank st with b :: _ => cs_act (cs_counter b) | [] => 0 end).
Lemma dram_days : Forall (fun s => option_map (fun x => sums_of (snd x)) (dram_after (ex_dspec s) (dram_day s) 200) =
  Some (match s with DDR4 => (5338, 3168, 1) | DDR5 => (2738, 3168, 1) | LPDDR4 => (14, 32, 1) | LPDDR5 => (24, 64, 1) | LPDDR6 => (23, 128, 1) end)) [DDR4; DDR5; LPDDR4; LPDDR5; LPDDR6].
Proof. repeat constructor; vm_compute; reflexivity. Qed.
Lemma dram_day_timed : Forall (fun s => nondecreasing 0 (map op_time (core_ops (dram_day s))) /\ final_time 0 (map op_time (core_ops (dram_day s))) <= 200) [DDR4; DDR5; LPDDR4; LPDDR5; LPDDR6].
Proof. repeat constructor; vm_compute; discriminate. Qed.

(* ---- pre- and postambles ---- *)

(* Bursts of 4 cycles: two reads without a gap, then one after a gap of one cycle,
   then a write. *)
Definition amble_day : list use :=
  [Both (cmd_at 0 ACT 0 3 0 []); Both (cmd_at 20 RD 0 0 9 row1); Both (cmd_at 24 RD 0 0 9 row1); Both (cmd_at 29 RD 0 0 9 row1); Both (cmd_at 60 WR 0 0 9 row1)].
Lemma amble_day_runs : exists d0 d d' st, dram_new (ex_dspec DDR4) = Value d0 /\ uses_run (ex_dspec DDR4) amble_day d0 = Returned d /\
  dram_window (ex_dspec DDR4) 100 d = Returned (d', st) /\ map cs_prepos (ss_rank st) = [mkPrepos 0 0 0 0 1 0].
Proof.
  destruct (dram_after (ex_dspec DDR4) amble_day 100) as [[d' st]|] eqn:E; [|vm_compute in E; discriminate E].
  pose proof E as E0. apply dram_after_runs in E as (d0 & d & A & B & C). exists d0, d, d', st. split; [exact A|]. split; [exact B|]. split; [exact C|].
  assert (option_map (fun x => map cs_prepos (ss_rank (snd x))) (dram_after (ex_dspec DDR4) amble_day 100) = Some [mkPrepos 0 0 0 0 1 0]) as Q by (vm_compute; reflexivity).
  rewrite E0 in Q. now injection Q.
Qed.
Definition read_charge (p : dspec) (us : list use) (t : N) : option Q :=
  match dram_after p us t with
  | Some (_, st) => match calc_interface_stats p st with Exactly e => Some (ie_ddyn e) | _ => None end
  | None => None
  end.
Lemma read_charge_runs p us t q : read_charge p us t = Some q -> exists d0 d d' st e, dram_new p = Value d0 /\ uses_run p us d0 = Returned d /\ dram_window p t d = Returned (d', st) /\
  calc_interface_stats p st = Exactly e /\ ie_ddyn e = q.
Proof.
  unfold read_charge. destruct (dram_after p us t) as [[d' st]|] eqn:E; [|discriminate]. apply dram_after_runs in E as (d0 & d & A & B & C).
  destruct (calc_interface_stats p st) as [e| |] eqn:I; try discriminate. intros Q. injection Q as <-. exists d0, d, d', st, e. repeat split; assumption.
Qed.
Definition two_reads (gap : N) : list use := [Both (cmd_at 0 ACT 0 3 0 []); Both (cmd_at 20 RD 0 0 9 row1); Both (cmd_at (24 + gap) RD 0 0 9 row1)].
Lemma seamless_charge : exists p us t d0 d d' st e,
  is_std (dp_ie p) = DDR4 /\ views_agree p /\ length us = 3%nat /\
  dram_new p = Value d0 /\ uses_run p us d0 = Returned d /\ dram_window p t d = Returned (d', st) /\ calc_interface_stats p st = Exactly e /\
  Qle (1000000000000000000 * ln_E (im_rdqs (is_imp (dp_ie p)))) (ie_ddyn e).
Proof.
  destruct (read_charge (ex_dspec DDR4) (two_reads 0) 100) as [q|] eqn:E; [|vm_compute in E; discriminate E].
  assert (match read_charge (ex_dspec DDR4) (two_reads 0) 100 with Some q => Qle_bool (1000000000000000000 * (1 # 1000)) q | None => false end = true) as B by (vm_compute; reflexivity).
  rewrite E in B. apply Qle_bool_iff in B. apply read_charge_runs in E as (d0 & d & d' & st & e & A1 & A2 & A3 & A4 & A5).
  exists (ex_dspec DDR4), (two_reads 0), 100, d0, d, d', st, e. split; [reflexivity|]. split; [apply ex_views|]. split; [reflexivity|].
  split; [exact A1|]. split; [exact A2|]. split; [exact A3|]. split; [exact A4|]. rewrite A5. exact B.
Qed.
Definition amble_charge (p : dspec) (us : list use) (t : N) : option Q :=
  match dram_after p us t with
  | Some (_, st) => match ambleEnergy (dp_ie p) st with Exactly e => Some (ie_total e) | _ => None end
  | None => None
  end.
Lemma amble_charge_runs p us t q : amble_charge p us t = Some q -> exists d0 d d' st e, dram_new p = Value d0 /\ uses_run p us d0 = Returned d /\ dram_window p t d = Returned (d', st) /\
  ambleEnergy (dp_ie p) st = Exactly e /\ ie_total e = q.
Proof.
  unfold amble_charge. destruct (dram_after p us t) as [[d' st]|] eqn:E; [|discriminate]. apply dram_after_runs in E as (d0 & d & A & B & C).
  destruct (ambleEnergy (dp_ie p) st) as [e| |] eqn:I; try discriminate. intros Q. injection Q as <-. exists d0, d, d', st, e. repeat split; assumption.
Qed.
Lemma gap_charge : exists p us t d0 d d' st e,
  is_std (dp_ie p) = DDR4 /\ views_agree p /\ am_rz2o (is_ambles (dp_ie p)) = 2 /\ ln_term (im_rdqs (is_imp (dp_ie p))) = true /\
  dram_new p = Value d0 /\ uses_run p us d0 = Returned d /\ dram_window p t d = Returned (d', st) /\
  rank_bursts (dp_if p) true true 0 (InterfaceSpec.commands (iface_calls us)) = [(20, 4); (34, 4)] /\
  ambleEnergy (dp_ie p) st = Exactly e /\ Qeq (ie_total e) 0.
Proof.
  destruct (amble_charge (ex_dspec DDR4) (two_reads 10) 100) as [q|] eqn:E; [|vm_compute in E; discriminate E].
  assert (match amble_charge (ex_dspec DDR4) (two_reads 10) 100 with Some q => Qeq_bool q 0 | None => false end = true) as B by (vm_compute; reflexivity).
  rewrite E in B. apply Qeq_bool_iff in B. apply amble_charge_runs in E as (d0 & d & d' & st & e & A1 & A2 & A3 & A4 & A5).
  exists (ex_dspec DDR4), (two_reads 10), 100, d0, d, d', st, e. split; [reflexivity|]. split; [apply ex_views|]. split; [reflexivity|]. split; [reflexivity|].
  split; [exact A1|]. split; [exact A2|]. split; [exact A3|]. split; [vm_compute; reflexivity|]. split; [exact A4|]. rewrite A5. exact B.
Qed.
Lemma overlap_not_merged : exists p us t d0 d d' st,
  is_std (dp_ie p) = DDR4 /\ dram_new p = Value d0 /\ uses_run p us d0 = Returned d /\ dram_window p t d = Returned (d', st) /\
  rank_bursts (dp_if p) true true 0 (InterfaceSpec.commands (iface_calls us)) = [(20, 4); (25, 4)] /\ map cs_prepos (ss_rank st) = [pp_zero].
Proof.
  destruct (dram_after (ex_dspec DDR4) (two_reads 1) 100) as [[d' st]|] eqn:E; [|vm_compute in E; discriminate E].
  assert (option_map (fun x => map cs_prepos (ss_rank (snd x))) (dram_after (ex_dspec DDR4) (two_reads 1) 100) = Some [pp_zero]) as B by (vm_compute; reflexivity).
  rewrite E in B. apply dram_after_runs in E as (d0 & d & A1 & A2 & A3).
  exists (ex_dspec DDR4), (two_reads 1), 100, d0, d, d', st. split; [reflexivity|]. split; [exact A1|]. split; [exact A2|]. split; [exact A3|].
  split; [vm_compute; reflexivity|]. now injection B.
Qed.
Lemma first_burst_seamless : exists p us t d0 d d' st,
  is_std (dp_ie p) = DDR4 /\ dram_new p = Value d0 /\ uses_run p us d0 = Returned d /\ dram_window p t d = Returned (d', st) /\
  rank_bursts (dp_if p) true true 0 (InterfaceSpec.commands (iface_calls us)) = [(0, 4)] /\ map cs_prepos (ss_rank st) = [mkPrepos 0 0 0 0 1 0].
Proof.
  destruct (dram_after (ex_dspec DDR4) [Both (cmd_at 0 RD 0 0 9 row1)] 100) as [[d' st]|] eqn:E; [|vm_compute in E; discriminate E].
  assert (option_map (fun x => map cs_prepos (ss_rank (snd x))) (dram_after (ex_dspec DDR4) [Both (cmd_at 0 RD 0 0 9 row1)] 100) = Some [mkPrepos 0 0 0 0 1 0]) as B by (vm_compute; reflexivity).
  rewrite E in B. apply dram_after_runs in E as (d0 & d & A1 & A2 & A3).
  exists (ex_dspec DDR4), [Both (cmd_at 0 RD 0 0 9 row1)], 100, d0, d, d', st. split; [reflexivity|]. split; [exact A1|]. split; [exact A2|]. split; [exact A3|].
  split; [vm_compute; reflexivity|]. now injection B.
Qed.
Lemma amble_day_ok : sizes_ok (spec_of_std DDR4) /\ Forall (fun c => cmd_ts c + burst_cycles (spec_of_std DDR4) true c < two64) (InterfaceSpec.commands (iface_calls amble_day)) /\
  rank_bursts (spec_of_std DDR4) true true 0 (InterfaceSpec.commands (iface_calls amble_day)) = [(20, 4); (24, 4); (29, 4)].
Proof. split; [split; [|split]; vm_compute; reflexivity|]. split; [repeat constructor|vm_compute; reflexivity]. Qed.
