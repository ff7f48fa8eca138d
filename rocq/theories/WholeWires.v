(* What the statistics of an interface say of every group of wires after a trace. *)
From Coq Require Import NArith QArith List Bool Arith Lia.
From Verif Require Import Base Command CoreModel Bits BusModel WaveSpec BitFacts ListFacts BusProofs ToggleModel ToggleProofs DataProofs ClockProofs PinModel DbiModel DbiPinModel
  StatsModel StatsSpec IfEnergyModel IfEnergySpec FormatProofs InterfaceModel InterfaceSpec WireSpec InterfaceCa InterfaceRun InterfaceTop InterfaceData AmbleSpec AmbleProofs
  ProgressSpec ProgressProofs ProgressQuery WholeSpec.
Import ListNotations.
Local Open Scope N_scope.
Ltac Zify.zify_post_hook ::= idtac.

(* ---- the inversion pins ---- *)
Definition at_rest (f : bus_field) (s : bus_stats) : Prop := field_at s f = 0 /\ z2o s = 0.
Definition costs (l : pin_state) (f : bus_field) : Prop := (l = PinH /\ f = Zeroes) \/ (l = PinL /\ f = Ones).
Lemma pin_rests max l f t rate s : costs l f -> pin_stats_at (pin_new max l l) t rate = Value s -> at_rest f s.
Proof.
  intros C. unfold pin_stats_at. cbn [pin_new pn_set_at pn_init pn_state pn_idle pn_stats]. rewrite (proj2 (N.leb_le 0 _)) by apply N.le_0_l. cbn [check].
  assert (at_rest f stats0) as Z by (destruct C as [[_ ->]|[_ ->]]; split; reflexivity).
  destruct (u64_mul t rate =? 0); [intros E; apply value_inj in E; now subst s|]. unfold pin_count, pin_add_pending. cbn [pin_new pn_store pn_max pn_pend_set andb].
  assert ((if 0 <? u64_mul t rate then stats_add stats0 (pin_change l l) else stats0) = stats0) as ->.
  { destruct (0 <? u64_mul t rate); [|reflexivity]. destruct C as [[-> _]|[-> _]]; reflexivity. }
  destruct (u64_mul t rate <=? 0); [intros E; apply value_inj in E; now subst s|]. change (bit_store_end bit_store0) with 0. rewrite N.ltb_irrefl.
  intros E; apply value_inj in E. subst s. unfold pin_dwell. destruct (0 <? u64_mul t rate); [|exact Z].
  destruct C as [[-> ->]|[-> ->]]; split; reflexivity.
Qed.
Lemma pins_rest max l f t rate n : costs l f -> forall s s', at_rest f s ->
  loop (fun p s => x <- pin_stats_at p t rate ;; Value (stats_add s x)) (repeat (pin_new max l l) n) s = Value s' -> at_rest f s'.
Proof.
  intros C. induction n as [|n IH]; intros s s' R E; [cbn in E; apply value_inj in E; now subst s'|]. cbn [repeat loop] in E.
  apply bind_inv in E as (s1 & E1 & E). apply bind_inv in E1 as (x & X & E1). apply value_inj in E1. subst s1. eapply IH; [|exact E].
  destruct (pin_rests _ _ _ _ _ _ C X) as [H1 H2]. destruct R as [R1 R2]. destruct C as [[_ ->]|[_ ->]]; unfold at_rest, field_at in *; cbn [stats_add ones zeroes z2o]; rewrite H1, H2, R1, R2; split; reflexivity.
Qed.
Lemma dbi_rests p x t read s : new_dbi p = Value (Some x) -> dbi_if_stats x t 2 read = Value s -> at_rest (burning (fi_std p)) s.
Proof.
  unfold new_dbi. intros X E. unfold dbi_if_stats in E. destruct (fi_std p) eqn:Std; try discriminate.
  4:{ apply bind_inv in X as (d & _ & X). injection X as <-. destruct read; apply value_inj in E; subst s; split; reflexivity. }
  all: apply bind_inv in X as (d & X1 & X); injection X as <-; unfold dbi_if_new in X1; apply bind_inv in X1 as (y & Y & X1);
    destruct (chunks_per_width (dbi_config_of p)) as [n|]; [|discriminate]; apply value_inj in X1; subst d; cbn [di_read di_write] in E;
    assert (costs (dg_idle (dbi_config_of p)) (burning (fi_std p))) as C by (unfold dbi_config_of; rewrite Std; cbn; unfold costs; auto); rewrite Std in C;
    destruct read; eapply pins_rest; try exact E; try exact C; split; reflexivity.
Qed.

(* ---- no count is too big ---- *)
Lemma periods_small k half n : k * (2 * (half * n)) < two64 -> wrap_stats (scale k (periods half n)) = scale k (periods half n).
Proof. intros H. apply stats_eq; cbn [wrap_stats scale periods ones zeroes changes o2z z2o]; apply N.mod_small; lia. Qed.
Lemma estimate_small w d i rate duty h : (0 <= rate <= 1)%Q -> (0 <= duty <= 1)%Q -> w * (d + i) < two64 ->
  wrap_stats (estimate w d i rate duty h) = estimate w d i rate duty h.
Proof.
  intros R D H. assert (in_unit rate = true /\ in_unit duty = true) as [R' D'].
  { unfold in_unit. rewrite !andb_true_iff, !Qle_bool_iff. tauto. }
  pose proof (share_bounds d duty D') as S1. pose proof (share_split d duty D') as [S2 _]. pose proof (share_half d rate R') as S3.
  assert (forall x, x <= d + i -> w * x < two64) as K by (intros x Hx; eapply N.le_lt_trans; [apply N.mul_le_mono_l; exact Hx|exact H]).
  unfold estimate. apply stats_eq; cbn [wrap_stats ones zeroes changes o2z z2o]; apply N.mod_small.
  - apply K. destruct h; lia.
  - apply K. destruct h; lia.
  - replace (2 * (w * share d (rate / 2))) with (w * (2 * share d (rate / 2))) by lia. apply K. lia.
  - apply K. lia.
  - apply K. lia.
Qed.

(* ---- bursts ---- *)
Lemma order_any p bus wanted : forall cs from from' until, bursts_in_order p bus wants_any from until cs -> from' <= from -> bursts_in_order p bus wanted from' until cs.
Proof.
  induction cs as [|c cs IH]; intros from from' until O H; cbn [bursts_in_order] in *; [lia|].
  destruct (transfers (cmd_type c)) as [r|]; [|eapply IH; eassumption]. cbn [wants_any] in O. destruct O as [O1 O2].
  destruct (wanted r); [split; [lia|]; eapply IH; [exact O2|lia]|]. eapply IH; [exact O2|lia].
Qed.
Lemma order_total p bus wanted : forall cs from until, bursts_in_order p bus wanted from until cs -> from + total_cycles p bus wanted cs <= until.
Proof.
  induction cs as [|c cs IH]; intros from until O; cbn [bursts_in_order] in O; [unfold total_cycles; cbn; lia|].
  unfold total_cycles. cbn [filter]. destruct (transfers (cmd_type c)) as [r|]; [|apply IH; exact O]. destruct (wanted r); [|apply IH; exact O].
  destruct O as [O1 O2]. apply IH in O2. unfold total_cycles in O2. cbn [map fold_right]. lia.
Qed.
Lemma even_half n : N.even n = true -> n = 2 * (n / 2).
Proof. intros H. apply N.even_spec in H as [m ->]. rewrite N.mul_comm, N.div_mul by lia. lia. Qed.

(* ---- every group ---- *)
Lemma dbi_fields i t st st' : if_window i t st = Value st' -> exists r w, dbi_stats i t true = Value r /\ dbi_stats i t false = Value w /\
  ss_readDBI st' = stats_add (ss_readDBI st) r /\ ss_writeDBI st' = stats_add (ss_writeDBI st) w.
Proof.
  unfold if_window. cbv zeta. intros E. apply bind_inv in E as (ranks & E1 & E). apply bind_inv in E as (cmd & E2 & E). apply bind_inv in E as (d & E3 & E).
  apply bind_inv in E as (rd & E4 & E). apply bind_inv in E as (wd & E5 & E). apply value_inj in E. subst st'. exists rd, wd. cbn [ss_readDBI ss_writeDBI]. auto.
Qed.
Lemma switching_do cs : switching true (map Do cs) = [].
Proof. induction cs as [|c cs IH]; [reflexivity|exact IH]. Qed.
Lemma stats_add_0 a : field_at (stats_add stats0 a) Ones = ones a mod two64.
Proof. reflexivity. Qed.
Lemma rest_add f a : at_rest f a -> at_rest f (stats_add stats0 a).
Proof.
  intros [H1 H2]. split; [|unfold stats_add; cbn [z2o stats0]; rewrite H2; reflexivity].
  destruct f; unfold field_at in *; unfold stats_add; cbn [ones zeroes changes o2z z2o stats0]; rewrite H1; reflexivity.
Qed.

(* The sum of a count over the records of a group. *)
Definition group_count (st : sim_stats) (g : group) (f : bus_field) : N := fold_right N.add 0 (map (fun b => count_at st (OnBus b f)) (signals g)).

Section Wires.
Context (p : ifspec) (e : ispec) (sim : option toggle_def) (cs : list Command) (t : N) (i0 i : iface) (st : sim_stats)
  (Sz : sizes_ok p) (G6 : fi_std p = LPDDR6 -> fi_groups p = 4) (New : iface_new p sim = Value i0) (Good : match sim with Some d =>
    (0 <= td_read_rate d <= 1)%Q /\ (0 <= td_read_duty d <= 1)%Q /\ (0 <= td_write_rate d <= 1)%Q /\ (0 <= td_write_duty d <= 1)%Q /\ td_read_idle d <> TogInvalid /\ td_write_idle d <> TogInvalid | None => True end)
  (Fits : trace_fits p (no_toggle sim) cs) (Ends : Forall (fun c => cmd_ts c <= t) cs) (Run : calls_run (map Do cs) i0 = Value i)
  (Win : if_window i t sim_stats0 = Value st) (Calm : calm p e sim cs t).

Let R0 : 0 < fi_rate p.
Proof. destruct (new_config p sim i0 Sz New) as (? & _ & _ & (_ & _ & R & _) & _). exact R. Qed.
Let factor x y : x <= fi_rate p + dqs_rate p + 2 -> y <= dq_lines p + 32 -> t * x * y < two64.
Proof.
  intros Hx Hy. pose proof (ca_small _ _ _ _ _ Calm) as S. eapply N.le_lt_trans; [apply N.mul_le_mono; [apply N.mul_le_mono_l; exact Hx|exact Hy]|].
  eapply N.le_lt_trans; [|exact S]. apply N.le_add_r.
Qed.
Let beats_ok : t * fi_rate p < two64.
Proof. pose proof (factor (fi_rate p) 1) as F. rewrite N.mul_1_r in F. apply F; lia. Qed.
Let t_ok : t < two64.
Proof. pose proof (factor 1 1) as F. rewrite !N.mul_1_r in F. apply F; lia. Qed.
Let beats_le : ca_beats (fi_std p) <= 2.
Proof. destruct (fi_std p); cbn; lia. Qed.
Let ca_ok : t * ca_beats (fi_std p) + 64 < two64.
Proof.
  pose proof (ca_small _ _ _ _ _ Calm) as S. eapply N.le_lt_trans; [|exact S]. apply N.add_le_mono_r. rewrite <- N.mul_assoc. apply N.mul_le_mono_l.
  pose proof beats_le. pose proof (proj1 Sz). transitivity (2 * 1); [lia|]. apply N.mul_le_mono; lia.
Qed.
Let Ok : Forall (fun c => cmd_ts c <= t /\ cmd_ts c + burst_cycles p (no_toggle sim) c < two64) (commands (map Do cs)).
Proof.
  rewrite commands_do. destruct Fits as [F1 _ _ _]. rewrite Forall_forall in *. intros c Hc. split; [apply Ends; exact Hc|]. exact (proj2 (cf_time _ _ _ (F1 c Hc))).
Qed.
Let Ok' : Forall (command_ok p (no_toggle sim)) (commands (map Do cs)).
Proof. rewrite commands_do. destruct Fits as [F1 _ _ _]. eapply Forall_impl; [|exact F1]. intros c Hc. exact (cf_time _ _ _ Hc). Qed.

Lemma wires_ca : ss_commandBus st = wire_counts p sim cs t CA.
Proof using All.
  destruct (command_bus_counts p sim i0 (map Do cs) i t Sz G6 New Ok ca_ok Run) as [_ H]. destruct (window_fields i t _ _ Win) as [W _]. rewrite H in W. apply value_inj in W.
  rewrite <- W. rewrite commands_do. cbn [wire_counts]. apply wave_small.
  replace (N.of_nat (ca_pins (fi_std p)) * (t * ca_beats (fi_std p))) with (t * ca_beats (fi_std p) * N.of_nat (ca_pins (fi_std p))) by lia.
  apply factor; [pose proof beats_le; lia|]. destruct (fi_std p); cbn; lia.
Qed.
Lemma wires_ck : ss_clock st = wire_counts p sim cs t CK.
Proof using All.
  assert (t * 2 < two64) as T2 by (pose proof (factor 2 1) as F; rewrite N.mul_1_r in F; apply F; lia).
  pose proof (clock_counts_top p sim i0 (map Do cs) i t _ _ Sz G6 New Ok' Run Win) as H. rewrite switching_do, always_on in H.
  rewrite H by (cbn; lia || exact T2). cbn [wire_counts]. apply periods_small.
  replace (2 * (2 * (1 * t))) with (t * 2 * 2) by lia. apply factor; lia.
Qed.
Lemma lines_strobe : strobe_lines p <= 4.
Proof. unfold strobe_lines. destruct (fi_std p), (fi_bits p =? 16); lia. Qed.
Lemma wires_strobe (wanted : bool -> bool) : wrap_stats (scale (strobe_lines p) (periods (dqs_rate p / 2) (total_cycles p (no_toggle sim) wanted cs))) =
  scale (strobe_lines p) (periods (dqs_rate p / 2) (total_cycles p (no_toggle sim) wanted cs)).
Proof using All.
  apply periods_small. set (n := total_cycles _ _ _ _).
  assert (n <= t) as Hn by (pose proof (order_total _ _ _ _ _ _ (order_any _ _ wanted _ _ 0 _ (ca_order _ _ _ _ _ Calm) (N.le_refl 0))); unfold n; lia).
  pose proof (even_half _ (ca_strobe _ _ _ _ _ Calm)) as E. eapply N.le_lt_trans; [|apply (factor (dqs_rate p) 4); lia].
  replace (strobe_lines p * (2 * (dqs_rate p / 2 * n))) with (n * (2 * (dqs_rate p / 2)) * strobe_lines p) by lia. rewrite <- E.
  apply N.mul_le_mono; [apply N.mul_le_mono_r; exact Hn|exact lines_strobe].
Qed.
Lemma wires_dqs : ss_readDQS st = wire_counts p sim cs t RDQS /\ (two_clocks (fi_std p) = false -> ss_writeDQS st = wire_counts p sim cs t WDQS).
Proof using All.
  pose proof (even_half _ (ca_strobe _ _ _ _ _ Calm)) as E.
  assert (t * (2 * (dqs_rate p / 2)) < two64) as B by (rewrite <- E; pose proof (factor (dqs_rate p) 1) as F; rewrite N.mul_1_r in F; apply F; lia).
  destruct (strobes_count p sim i0 (map Do cs) i t _ _ Sz G6 New Ok' Run Win (dqs_rate p / 2) E B t_ok) as [H1 H2]. rewrite commands_do in H1, H2. cbn [wire_counts].
  pose proof (ca_order _ _ _ _ _ Calm) as O. split.
  - rewrite H1 by (eapply order_any; [exact O|lia]). apply wires_strobe.
  - intros T. rewrite (H2 T) by (eapply order_any; [exact O|lia]). apply wires_strobe.
Qed.
Lemma wires_wck : two_clocks (fi_std p) = true -> ss_wClock st = wire_counts p sim cs t WCK.
Proof using All.
  intros T. pose proof (even_half _ (ca_wck _ _ _ _ _ Calm T)) as E. set (q := fi_rate p / fi_wck p) in *.
  assert (q <= fi_rate p) as Hq. { unfold q. destruct (N.eq_dec (fi_wck p) 0) as [->|Z]; [destruct (fi_rate p); cbn; lia|]. apply N.div_le_upper_bound; [exact Z|]. transitivity (1 * fi_rate p); [lia|]. apply N.mul_le_mono_r. lia. }
  assert (t * (2 * (q / 2)) < two64) as B by (rewrite <- E; pose proof (factor q 1) as F; rewrite N.mul_1_r in F; apply F; lia).
  destruct (wck_counts p sim i0 (map Do cs) i t _ _ Sz G6 New Ok' Run Win (q / 2) T E B t_ok) as [H1 H2]. rewrite switching_do, always_on in H1. rewrite commands_do in H2.
  pose proof (ca_order _ _ _ _ _ Calm) as O. cbn [wire_counts]. fold q.
  assert (forall n, n <= t -> wrap_stats (scale 2 (periods (q / 2) n)) = scale 2 (periods (q / 2) n)) as K.
  { intros n Hn. apply periods_small. eapply N.le_lt_trans; [|apply (factor q 2); lia]. replace (2 * (2 * (q / 2 * n))) with (n * (2 * (q / 2)) * 2) by lia. rewrite <- E.
    apply N.mul_le_mono_r, N.mul_le_mono_r. exact Hn. }
  destruct (fi_wck_on p).
  - rewrite H1; [apply K; lia|reflexivity|cbn; lia].
  - rewrite H2; [|reflexivity|exact O]. apply K. pose proof (order_total _ _ _ _ _ _ O). lia.
Qed.
Lemma wires_data : exists r w, r = wire_counts p sim cs t RDQ /\ w = wire_counts p sim cs t WDQ /\
  ((ss_readBus st = r /\ ss_writeBus st = w /\ ss_togRead st = stats0 /\ ss_togWrite st = stats0 /\ sim = None) \/
   (ss_readBus st = stats0 /\ ss_writeBus st = stats0 /\ ss_togRead st = r /\ ss_togWrite st = w /\ sim <> None)).
Proof using All.
  eexists. eexists. split; [reflexivity|]. split; [reflexivity|]. cbn [wire_counts]. unfold data_counts. cbv zeta.
  assert (data_blank sim_stats0) as Bl by (repeat split).
  assert (dq_lines p * (t * fi_rate p) < two64) as Sm by (rewrite N.mul_comm; apply factor; lia).
  pose proof Good as Go. pose proof Fits as [F1 F2 F3 F4]. pose proof New as Nw. destruct sim as [d|]; cbn [no_toggle] in *.
  - right. destruct Go as (D1 & D2 & D3 & D4 & D5 & D6).
    assert (forall x, x <> TogInvalid -> high_idle x = Some (high x)) as K by (intros []; try reflexivity; congruence).
    assert (forall read, toggles_in_order (dq_lines p) (fi_rate p) 0 t (burst_lengths p read (commands (map Do cs)))) as O.
    { intros read. rewrite commands_do. eapply (lengths_ordered p t read R0 cs 0); [exact F1|exact Ends| |lia|lia]. destruct read; assumption. }
    destruct (data_bus_estimates p d i0 (map Do cs) i t _ _ _ _ Sz Nw (K _ D5) (K _ D6) O beats_ok Run Bl Win) as (B1 & B2 & H1 & H2 & H3 & H4).
    rewrite commands_do in *. split; [exact H1|]. split; [exact H2|]. rewrite H3, H4. split; [|split; [|discriminate]]; apply estimate_small; auto; rewrite N.add_comm, N.sub_add by assumption; exact Sm.
  - left. assert (Forall (fun c => cmd_ts c <= t /\ data_ok p c) (commands (map Do cs))) as Da.
    { rewrite commands_do. rewrite Forall_forall in *. intros c Hc. split; [apply Ends; exact Hc|]. apply fits_data; [apply F1; exact Hc|exact Sz|exact R0]. }
    destruct (data_bus_counts p i0 (map Do cs) i t _ _ Sz Nw Da beats_ok Run Bl Win) as (_ & _ & H1 & H2 & H3 & H4).
    assert (forall ds, wrap_stats (wave_stats (N.to_nat (dq_lines p)) (idle_word (N.to_nat (dq_lines p)) (dq_rests_high (fi_std p))) ds (t * fi_rate p)) =
      wave_stats (N.to_nat (dq_lines p)) (idle_word (N.to_nat (dq_lines p)) (dq_rests_high (fi_std p))) ds (t * fi_rate p)) as W.
    { intros ds. apply wave_small. rewrite N2Nat.id. exact Sm. }
    rewrite W in H1, H2. auto.
Qed.
Lemma wires_dbi : at_rest (burning (fi_std p)) (ss_readDBI st) /\ at_rest (burning (fi_std p)) (ss_writeDBI st).
Proof using All.
  destruct (trace_goes p sim i0 cs Sz G6 New Fits) as (j & R & V). rewrite Run in R. apply value_inj in R. subst j.
  destruct (dbi_fields i t _ _ Win) as (r & w & H1 & H2 & H3 & H4). rewrite H3, H4.
  assert (forall read s, dbi_stats i t read = Value s -> at_rest (burning (fi_std p)) s) as K.
  { intros read s E. unfold dbi_stats in E. pose proof (bt_dbi _ _ _ (new_built _ _ _ New)) as X. rewrite (pg_same _ _ _ _ _ V) in E. destruct (if_dbi i0) as [x|].
    - eapply dbi_rests; eassumption.
    - apply value_inj in E. subst s. destruct (fi_std p); split; reflexivity. }
  split; apply rest_add; eapply K; eassumption.
Qed.

Lemma wires_count g f : In g (groups (fi_std p)) -> f = burning (fi_std p) \/ f = ZeroesToOnes -> group_count st g f = field_at (wire_counts p sim cs t g) f.
Proof using All.
  intros Hg Hf. unfold group_count. destruct wires_dqs as [Q1 Q2]. destruct wires_data as (r & w & Er & Ew & D). destruct wires_dbi as [[B1 B2] [B3 B4]].
  assert (forall x, field_at x f + 0 = field_at x f) as A by (intros; apply N.add_0_r).
  assert (field_at stats0 f = 0) as Z by (destruct f; reflexivity).
  destruct g; cbn [signals map fold_right count_at bus_at]; rewrite ?A.
  - now rewrite wires_ck.
  - rewrite wires_wck; [reflexivity|]. destruct (fi_std p); cbn in Hg; cbn; try reflexivity; exfalso; intuition discriminate.
  - now rewrite wires_ca.
  - rewrite <- Er. destruct D as [(H1 & _ & H2 & _)|(H1 & _ & H2 & _)]; rewrite H1, H2, Z; lia.
  - rewrite <- Ew. destruct D as [(_ & H1 & _ & H2 & _)|(_ & H1 & _ & H2 & _)]; rewrite H1, H2, Z; lia.
  - now rewrite Q1.
  - rewrite Q2; [reflexivity|]. destruct (fi_std p); cbn in Hg; cbn; try reflexivity; exfalso; intuition discriminate.
  - cbn [wire_counts]. rewrite Z. destruct Hf as [->| ->]; [exact B1|exact B2].
  - cbn [wire_counts]. rewrite Z. destruct Hf as [->| ->]; [exact B3|exact B4].
Qed.
Lemma no_toggling_counts : sim = None -> ss_togRead st = stats0 /\ ss_togWrite st = stats0.
Proof using All.
  intros E. destruct wires_data as (r & w & Er & Ew & D). destruct D as [(_ & _ & H1 & H2 & _)|(_ & _ & _ & _ & K)]; [auto|contradiction].
Qed.
End Wires.
