(* After a trace that the interface has taken, its statistics can be had. *)
From Coq Require Import NArith QArith List Bool Arith Lia.
From Verif Require Import Base Command CoreModel Bits BusModel WaveSpec BitFacts ListFacts StorageProofs BusProofs BusMore ToggleModel ToggleProofs DataProofs ClockProofs
  PinModel DbiModel DbiPinModel StatsModel PatternModel PatternTables FormatProofs InterfaceModel InterfaceSpec WireSpec InterfaceCa InterfaceRun InterfaceTop InterfaceData HistorySpec DeviceSpec DeviceTop CoreHistory DramModel DramSpec DramProofs ProgressSpec ProgressProofs.
Import ListNotations.
Local Open Scope N_scope.
Ltac Zify.zify_post_hook ::= idtac.

Lemma pin_new_asks max init idle t rate : exists s, pin_stats_at (pin_new max init idle) t rate = Value s.
Proof.
  unfold pin_stats_at. cbn [pin_new pn_set_at pn_init pn_state pn_idle pn_stats]. rewrite (proj2 (N.leb_le 0 _)) by apply N.le_0_l. cbn [check].
  destruct (u64_mul t rate =? 0); [eexists; reflexivity|]. unfold pin_count. cbn [pin_new pn_store pn_max].
  destruct (u64_mul t rate <=? 0); [eexists; reflexivity|]. change (bit_store_end bit_store0) with 0. rewrite N.ltb_irrefl. eexists; reflexivity.
Qed.
Lemma pins_new_ask max init idle t rate n : forall s, exists s', loop (fun p s => x <- pin_stats_at p t rate ;; Value (stats_add s x)) (repeat (pin_new max init idle) n) s = Value s'.
Proof.
  induction n as [|n IH]; intros s; [eexists; reflexivity|]. cbn [repeat loop]. destruct (pin_new_asks max init idle t rate) as (x & ->). cbn [bind]. apply IH.
Qed.
Lemma dbi_new_asks p x t read : new_dbi p = Value (Some x) -> exists s, dbi_if_stats x t 2 read = Value s.
Proof.
  unfold new_dbi. intros X. destruct (fi_std p); try discriminate.
  4:{ apply bind_inv in X as (d & _ & X). injection X as <-. destruct read; eexists; reflexivity. }
  all: apply bind_inv in X as (d & X1 & X); injection X as <-; unfold dbi_if_new in X1; apply bind_inv in X1 as (y & Y & X1);
    destruct (chunks_per_width (dbi_config_of p)) as [n|]; [|discriminate]; apply value_inj in X1; subst d; unfold dbi_if_stats; cbn [di_read di_write];
    destruct read; apply pins_new_ask.
Qed.

(* ---- the data bus ---- *)
Lemma fits_data p c : command_fits p true c -> sizes_ok p -> 0 < fi_rate p -> data_ok p c.
Proof.
  intros F (W0 & _ & _) R0 S. unfold sends in S.
  assert (transfers (cmd_type c) <> None /\ cmd_data c <> []) as [T D].
  { destruct (transfers (cmd_type c)) as [r|]; [|discriminate]. split; [discriminate|]. intros Q. rewrite Q, !andb_false_r in S. discriminate. }
  pose proof (cf_burst _ _ _ F T) as B. destruct (cycles_beats p true c (bf_cycle _ _ _ B) R0 W0) as [_ K].
  destruct (bf_bytes _ _ _ B) as [Q|[B1 B2]]; [contradiction|]. split; [exact B1|]. split; [exact B2|]. split; [exact K|exact (bf_time _ _ _ B)].
Qed.
Lemma lengths_ordered p t read : 0 < fi_rate p -> forall cs from, Forall (command_fits p false) cs -> Forall (fun c => cmd_ts c <= t) cs -> no_overlap from (bursts p false read cs) ->
  forall u, u * fi_rate p <= from -> u <= t -> toggles_in_order (dq_lines p) (fi_rate p) u t (burst_lengths p read cs).
Proof.
  intros R0. induction cs as [|c cs IH]; intros from F L O u U Ut; [exact Ut|]. inversion F as [|? ? F1 F2]; subst. inversion L as [|? ? L1 L2]; subst.
  unfold bursts in O. unfold burst_lengths. cbn [flat_map] in *. fold (bursts p false read cs) in O. fold (burst_lengths p read cs).
  destruct (transfers (cmd_type c)) as [r|] eqn:T; [|eapply IH; eassumption].
  destruct (eqb r read); [|eapply IH; eassumption]. cbn [app no_overlap fst snd toggles_in_order toggle_time] in *. destruct O as [O1 O2].
  split; [apply (N.mul_le_mono_pos_r _ _ (fi_rate p) R0); lia|]. split.
  - assert (burst_fits p false c) as B by (apply (cf_burst _ _ _ F1); rewrite T; discriminate). exact (bf_time _ _ _ B).
  - eapply IH; try eassumption. lia.
Qed.
Lemma idle_high i x : convert_idle i = Value x -> exists h, high_idle i = Some h.
Proof. destruct i; cbn; try discriminate; eexists; reflexivity. Qed.
Lemma data_asks p sim i0 cs i t : sizes_ok p -> iface_new p sim = Value i0 -> trace_fits p (no_toggle sim) cs -> calls_run (map Do cs) i0 = Value i ->
  Forall (fun c => cmd_ts c <= t) cs -> t * fi_rate p < two64 -> exists s, data_get (if_data i) t = Value s.
Proof.
  intros Sz New [F1 _ F3 F4] Run L T. destruct (new_config p sim i0 Sz New) as (max & Wm & D & C & Wd). pose proof C as (_ & _ & R0 & _). change (0 < fi_rate p) in R0.
  destruct sim as [d|]; cbn [no_toggle data_mode] in *.
  - assert (tog_inv p i0 [] i0) as V0.
    { split; [apply (bt_spec _ _ _ (new_built _ _ _ New))|]. split; [now rewrite (data_new_mode _ _ _ _ D)|]. exists []. split; [reflexivity|]. split; [constructor|]. reflexivity. }
    destruct (tog_run p i0 Sz (map Do cs) [] i0 i V0 Run) as (_ & _ & ops & Ru & Lo & Le). cbn [app] in Le. rewrite commands_do in Le.
    assert (exists rh, high_idle (dc_read_idle (data_config_of p (Some d))) = Some rh) as (rh & IR)
      by (unfold data_new in D; apply bind_inv in D as (x & X & _); eapply idle_high; exact X).
    assert (exists wh, high_idle (dc_write_idle (data_config_of p (Some d))) = Some wh) as (wh & IW)
      by (unfold data_new in D; apply bind_inv in D as (x & _ & D); apply bind_inv in D as (y & _ & D); apply bind_inv in D as (z & Z & _); eapply idle_high; exact Z).
    pose proof (toggling_mode_counts max (data_config_of p (Some d)) rh wh ops t (if_data i0) (if_data i) C IR IW Lo) as M.
    rewrite Wd, N2Nat.id, !Le, rate_eq in M.
    specialize (M (lengths_ordered p t true R0 cs 0 F1 L F3 0 (N.le_refl 0) (N.le_0_l t)) (lengths_ordered p t false R0 cs 0 F1 L F4 0 (N.le_refl 0) (N.le_0_l t)) T D Ru).
    eexists. exact M.
  - destruct (wire_start p i0 Sz New) as (max' & Wm' & V0 & Tg).
    assert (Forall (fun c => cmd_ts c <= t) (InterfaceSpec.commands (map Do cs))) as L' by (rewrite commands_do; exact L).
    assert (Forall (data_ok p) (InterfaceSpec.commands (map Do cs))) as F2.
    { rewrite commands_do. eapply Forall_impl; [|exact F1]. intros c H. apply fits_data; assumption. }
    pose proof (wire_run p max' i0 Sz Wm' R0 (map Do cs) [] i0 i F2 V0 Run) as V. cbn [app] in V.
    destruct (dq_stats p max' true _ _ (map Do cs) t _ Sz Wm' R0 L' T (wi_read _ _ _ _ _ V)) as [A1 G1].
    destruct (dq_stats p max' false _ _ (map Do cs) t _ Sz Wm' R0 L' T (wi_write _ _ _ _ _ V)) as [A2 G2].
    destruct (Tg t T) as [T1 T2]. unfold data_get. rewrite G1, G2, (wi_tr _ _ _ _ _ V), (wi_tw _ _ _ _ _ V), T1, T2. cbn [bind]. eexists; reflexivity.
Qed.

(* ---- a query of the interface ---- *)
Theorem window_goes p sim i0 cs i t st : sizes_ok p -> (fi_std p = LPDDR6 -> fi_groups p = 4) -> iface_new p sim = Value i0 -> trace_fits p (no_toggle sim) cs ->
  calls_run (map Do cs) i0 = Value i -> Forall (fun c => cmd_ts c <= t) cs -> t * ca_beats (fi_std p) + 64 < two64 -> t * fi_rate p < two64 ->
  exists st', if_window i t st = Value st'.
Proof.
  intros Sz G New F Run L T1 T2.
  assert (prog_inv p (no_toggle sim) i0 cs i) as V.
  { destruct (trace_goes p sim i0 cs Sz G New F) as (j & R & V). rewrite Run in R. apply value_inj in R. now subst j. }
  pose proof (new_built _ _ _ New) as B. pose proof (rn_spec _ _ _ _ _ (pg_run _ _ _ _ _ V)) as Sp.
  unfold if_window. rewrite Sp.
  assert (exists r, fill_ranks i (ss_rank st) = Value r) as (r & ->).
  { unfold fill_ranks. rewrite Sp. destruct (fi_std p) eqn:S4; try (eexists; reflexivity). destruct (pg_ranks _ _ _ _ _ V S4) as [Rl _].
    apply fill_rank_goes; [lia|rewrite resize_length; lia]. }
  cbn [bind].
  assert (exists s, bus_get_stats (if_cmd i) t = Value s) as (s & ->).
  { eexists. apply (command_bus_counts p sim i0 (map Do cs) i t Sz G New); auto. rewrite commands_do.
    apply Forall_forall. intros c Hc. destruct F as [F1 _ _ _]. rewrite Forall_forall in F1, L. split; [now apply L|]. exact (proj2 (cf_time _ _ _ (F1 _ Hc))). }
  cbn [bind].
  destruct (data_asks p sim i0 cs i t Sz New F Run L T2) as (d & ->). cbn [bind].
  assert (forall read, exists s, dbi_stats i t read = Value s) as K.
  { intros read. unfold dbi_stats. pose proof (bt_dbi _ _ _ B) as X. rewrite (pg_same _ _ _ _ _ V). destruct (if_dbi i0) as [x|]; [|eexists; reflexivity].
    eapply dbi_new_asks. exact X. }
  destruct (K true) as (k1 & ->). destruct (K false) as (k2 & ->). cbn [bind]. eexists; reflexivity.
Qed.

(* ---- an object ---- *)
Lemma uses_go p : forall us d, Forall command_or_query us -> (exists r, run_ops (dp_core p) (core_ops us) (dr_core d) = Ok r) ->
  (forall a b, us = a ++ b -> exists i, calls_run (iface_calls a) (dr_if d) = Value i /\
    forall t b', b = Ask t :: b' -> forall st, exists st', if_window i t st = Value st') ->
  exists d', uses_run p us d = Returned d'.
Proof.
  induction us as [|u us IH]; intros d P (r & Rc) Ri; [eexists; reflexivity|]. inversion P as [|? ? P1 P2]; subst.
  cbn [uses_run]. destruct u as [c|c|x|t]; try contradiction.
  - cbn [use_do]. unfold do_dram_command, do_core_command, do_interface_command. cbn [core_ops flat_map app] in Rc. fold (core_ops us) in Rc. cbn [run_ops] in Rc.
    destruct (do_command (dp_core p) c (dr_core d)) as [s| | |]; try discriminate. cbn [dr_if dr_core].
    destruct (Ri [Both c] us eq_refl) as (i & Ei & _). cbn [iface_calls flat_map app] in Ei. apply loop_cons_inv in Ei as (i1 & E1 & _). cbn [call_do] in E1. rewrite E1.
    apply IH; [exact P2|eexists; exact Rc|]. intros a b E. destruct (Ri (Both c :: a) b) as (j & Ej & K); [cbn; now rewrite E|].
    exists j. split; [|exact K]. cbn [iface_calls flat_map app] in Ej. apply loop_cons_inv in Ej as (j1 & J1 & Ej). cbn [call_do] in J1. rewrite E1 in J1. apply value_inj in J1. subst j1. exact Ej.
  - cbn [use_do]. unfold dram_window. cbn [core_ops flat_map app] in Rc. fold (core_ops us) in Rc. cbn [run_ops] in Rc.
    destruct (window_stats (dp_core p) t (dr_core d)) as [s a0].
    destruct (Ri [] (Ask t :: us) eq_refl) as (i & Ei & K). apply value_inj in Ei. subst i. destruct (K t us eq_refl (fill_core a0)) as (st & ->).
    apply IH; cbn [dr_core dr_if]; [exact P2| |].
    + destruct (run_ops (dp_core p) (core_ops us) s) as [y|[]| |]; try discriminate. eexists; reflexivity.
    + intros a b E. destruct (Ri (Ask t :: a) b) as (j & Ej & K'); [cbn; now rewrite E|]. exists j. split; [exact Ej|exact K'].
Qed.
Lemma plain_calls us : Forall command_or_query us -> iface_calls us = map Do (HistorySpec.commands (core_ops us)).
Proof.
  induction 1 as [|u us H _ IH]; [reflexivity|]. destruct u; try contradiction; cbn [iface_calls core_ops flat_map app HistorySpec.commands map];
    fold (iface_calls us); fold (core_ops us); rewrite IH; reflexivity.
Qed.
Lemma ops_app us us' : core_ops (us ++ us') = core_ops us ++ core_ops us'.
Proof. unfold core_ops. apply flat_map_app. Qed.
Lemma hist_app a b : HistorySpec.commands (a ++ b) = HistorySpec.commands a ++ HistorySpec.commands b.
Proof. induction a as [|[] a IH]; cbn; [reflexivity|now rewrite IH|exact IH]. Qed.
Lemma before_query ops t rest : forall from, nondecreasing from (map op_time (ops ++ Query t :: rest)) -> Forall (fun c => cmd_ts c <= t) (HistorySpec.commands ops) /\ from <= t.
Proof.
  induction ops as [|o ops IH]; intros from H; cbn [app map nondecreasing op_time] in H.
  - split; [constructor|apply H].
  - destruct H as [H1 H2]. destruct (IH _ H2) as [I1 I2]. destruct o; cbn [HistorySpec.commands op_time] in *; (split; [|eapply N.le_trans; eassumption]); try assumption. constructor; assumption.
Qed.
Lemma last_above ops : forall from, nondecreasing from (map op_time ops) -> from <= final_time from (map op_time ops) /\ Forall (fun o => op_time o <= final_time from (map op_time ops)) ops.
Proof.
  induction ops as [|o ops IH]; intros from H; [split; [apply N.le_refl|constructor]|]. cbn [map nondecreasing] in H. destruct H as [H1 H2].
  destruct (IH _ H2) as [I1 I2]. cbn [map]. change (final_time from (op_time o :: map op_time ops)) with (final_time (op_time o) (map op_time ops)). split; [eapply N.le_trans; [exact H1|exact I1]|constructor; assumption].
Qed.

Theorem object_goes p us d0 t : dram_new p = Value d0 -> Forall command_or_query us ->
  nondecreasing 0 (map op_time (core_ops us)) -> final_time 0 (map op_time (core_ops us)) <= t -> t * ca_beats (fi_std (dp_if p)) + 64 < two64 -> t * fi_rate (dp_if p) < two64 ->
  sizes_ok (dp_if p) -> (fi_std (dp_if p) = LPDDR6 -> fi_groups (dp_if p) = 4) ->
  let cs := HistorySpec.commands (core_ops us) in
  well_formed (dp_core p) -> timely (dp_core p) cs t -> legal_history (dp_core p) cs -> trace_fits (dp_if p) (no_toggle (dp_sim p)) cs ->
  exists d, uses_run p us d0 = Returned d.
Proof.
  intros New P O Fn T1 T2 Sz G cs Wf Ti Le Fi. unfold dram_new in New. apply bind_inv in New as (i0 & New & D). apply value_inj in D. subst d0.
  assert (Forall (fun o => op_time o <= t) (core_ops us)) as La.
  { eapply Forall_impl; [|exact (proj2 (last_above _ 0 O))]. intros o Ho. eapply N.le_trans; [exact Ho|exact Fn]. }
  apply uses_go; cbn [dr_core dr_if]; [exact P| |].
  - destruct (legal_history_accepted _ _ _ Wf Ti Le) as (s & Rs). destruct (queries_never_break _ _ _ _ O Rs) as (s' & an & E). eexists. exact E.
  - intros a b E. assert (Forall command_or_query a) as Pa by (rewrite E in P; now apply Forall_app in P).
    rewrite (plain_calls a Pa). rewrite E, ops_app in O. rewrite E, ops_app in La.
    assert (trace_fits (dp_if p) (no_toggle (dp_sim p)) (HistorySpec.commands (core_ops a))) as Fa.
    { unfold cs in Fi. rewrite E, ops_app, hist_app in Fi. eapply fits_app. exact Fi. }
    destruct (trace_goes (dp_if p) (dp_sim p) i0 _ Sz G New Fa) as (i & Ri & _). exists i. split; [exact Ri|].
    intros u b' -> st. cbn [core_ops flat_map app] in O, La. fold (core_ops b') in O, La. destruct (before_query _ _ _ _ O) as [Bq _].
    assert (u <= t) as Ut.
    { apply Forall_app in La as [_ La]. inversion La as [|? ? L1 _]; subst. exact L1. }
    eapply window_goes; try eassumption.
    + eapply N.le_lt_trans; [|exact T1]. apply N.add_le_mono_r. now apply N.mul_le_mono_r.
    + eapply N.le_lt_trans; [|exact T2]. now apply N.mul_le_mono_r.
Qed.
