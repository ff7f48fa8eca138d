(* The energies printed for a trace. *)
From Coq Require Import NArith QArith List Bool Arith Lia.
From Verif Require CoreHistory.
From Verif Require Import Base Command CoreModel Bits WaveSpec BitFacts ToggleModel ToggleProofs StatsModel StatsSpec EnergyModel EnergySpec EnergyProofs IfEnergyModel IfEnergySpec IfEnergyProofs
  FormatProofs InterfaceModel InterfaceSpec WireSpec InterfaceCa InterfaceRun InterfaceTop InterfaceData AmbleSpec AmbleProofs HistorySpec DeviceSpec DeviceTop DramModel DramSpec DramProofs
  ProgressSpec ProgressProofs ProgressQuery ChargeSpec ChargeProofs CliModel CliSpec CliProofs CliTop MemSpecModel MemSpecSpec MemSpecProofs WholeSpec WholeWires.
Import ListNotations.
Local Open Scope N_scope.
Ltac Zify.zify_post_hook ::= idtac.

(* ---- sums ---- *)
Lemma qn_sum (a b : N) : (qn (a + b) == qn a + qn b)%Q.
Proof. unfold qn. rewrite N2Z.inj_add, inject_Z_plus. reflexivity. Qed.
Lemma static_sum (k u : Q) (x : bus_name -> N) l : (qsum (fun b => k * (qn (x b) * u)) l == k * (qn (fold_right N.add 0%N (map x l)) * u))%Q.
Proof.
  induction l as [|b l IH]; [rewrite qsum_nil; cbn [map fold_right]; change (qn 0) with 0%Q; ring|]. rewrite qsum_cons, IH. cbn [map fold_right]. rewrite qn_sum. ring.
Qed.
Lemma dynamic_sum (k : Q) (x : bus_name -> N) l : (qsum (fun b => k * qn (x b)) l == k * qn (fold_right N.add 0%N (map x l)))%Q.
Proof.
  induction l as [|b l IH]; [rewrite qsum_nil; cbn [map fold_right]; change (qn 0) with 0%Q; ring|]. rewrite qsum_cons, IH. cbn [map fold_right]. rewrite qn_sum. ring.
Qed.

(* ---- ambles ---- *)
Lemma ranks_blank i t st : if_window i t sim_stats0 = Value st -> Forall (fun r => cs_counter r = cs_zero) (ss_rank st) /\
  (fi_std (if_spec i) = DDR4 -> length (ss_rank st) = fi_ranks (if_spec i)).
Proof.
  unfold if_window. cbv zeta. intros E. apply bind_inv in E as (ranks & Fr & E). repeat (apply bind_inv in E as (? & _ & E)). apply value_inj in E. subst st. cbn [ss_rank].
  unfold fill_ranks in Fr. destruct (fi_std (if_spec i)); try (apply value_inj in Fr; subst ranks; split; [constructor|discriminate]).
  apply fill_rank_loop in Fr as [L Fr]. assert (length (resize_stats (ss_rank sim_stats0) (fi_ranks (if_spec i))) = fi_ranks (if_spec i)) as Lr.
  { unfold resize_stats. rewrite app_length, firstn_length, repeat_length. cbn. lia. }
  split; [|intros _; lia]. apply Forall_forall. intros y Hx. apply In_nth_error in Hx as [j Hj]. pose proof Hj as Hj'. rewrite Fr in Hj.
  assert (j < length ranks)%nat as Lj by (apply nth_error_Some; congruence).
  replace ((0 <=? j)%nat && (j <? 0 + fi_ranks (if_spec i))%nat) with true in Hj by (symmetry; apply andb_true_intro; split; [apply Nat.leb_le|apply Nat.ltb_lt]; lia).
  destruct (nth_error (if_ranks i) j) as [r|]; [|discriminate]. destruct (nth_error (resize_stats (ss_rank sim_stats0) (fi_ranks (if_spec i))) j) as [s|] eqn:Ns; [|discriminate].
  injection Hj as <-. cbn [cs_counter]. unfold resize_stats in Ns. cbn [ss_rank sim_stats0] in Ns. rewrite firstn_nil in Ns. cbn [app] in Ns.
  apply nth_error_In, repeat_spec in Ns. subst s. reflexivity.
Qed.
Lemma total_zero (f : cycle_stats -> N) st : Forall (fun r => f r = 0) (ss_rank st) -> total_over_ranks f st = 0.
Proof. unfold total_over_ranks. induction 1 as [|r l H _ IH]; [reflexivity|]. cbn [map fold_right]. now rewrite H, IH. Qed.

Section Energy.
Context (p : ifspec) (e : ispec) (sim : option toggle_def) (cs : list Command) (t : N) (i0 i : iface) (st : sim_stats)
  (Same : is_std e = fi_std p)
  (Sz : sizes_ok p) (G6 : fi_std p = LPDDR6 -> fi_groups p = 4) (New : iface_new p sim = Value i0) (Good : match sim with Some d => good_toggle d | None => True end)
  (Fits : trace_fits p (no_toggle sim) cs) (Ends : Forall (fun c => cmd_ts c <= t) cs) (Run : calls_run (map Do cs) i0 = Value i)
  (Win : if_window i t sim_stats0 = Value st) (Calm : calm p e sim cs t).

Lemma seamless_none : fi_std p = DDR4 -> forall s, total_over_ranks (seamless s) st = 0.
Proof using All.
  intros S4 s. apply total_zero. destruct (ranks_blank i t st Win) as [_ L]. apply Forall_forall. intros x Hx. apply In_nth_error in Hx as [j Hj].
  assert (if_spec i = p) as Sp.
  { destruct (trace_goes p sim i0 cs Sz G6 New Fits) as (k & R & V). rewrite Run in R. apply value_inj in R. subst k. exact (rn_spec _ _ _ _ _ (pg_run _ _ _ _ _ V)). }
  rewrite Sp in L. assert (j < fi_ranks p)%nat as Lj by (rewrite <- (L S4); apply nth_error_Some; congruence).
  assert (Forall (fun c => cmd_ts c + burst_cycles p (no_toggle sim) c < two64) (InterfaceSpec.commands (map Do cs))) as Ok.
  { rewrite commands_do. destruct Fits as [F1 _ _ _]. eapply Forall_impl; [|exact F1]. intros c Hc. exact (proj2 (cf_time _ _ _ Hc)). }
  destruct (seamless_counts p sim i0 (map Do cs) i t _ st j Sz S4 New Ok Run Win Lj) as (_ & _ & H). rewrite commands_do, Hj in H. cbn [option_map] in H.
  destruct (ca_gaps _ _ _ _ _ Calm S4 j true Lj) as [A1 A2]. destruct (ca_gaps _ _ _ _ _ Calm S4 j false Lj) as [A3 A4]. rewrite A1, A2, A3, A4 in H. injection H as H.
  unfold seamless, part_at. rewrite H. destruct s; reflexivity.
Qed.
Lemma bursts_none s : total_over_ranks (IfEnergySpec.bursts s) st = 0.
Proof using Win.
  apply total_zero. destruct (ranks_blank i t st Win) as [F _]. eapply Forall_impl; [|exact F]. intros r H.
  destruct s; unfold IfEnergySpec.bursts, part_at, cs_get; rewrite H; reflexivity.
Qed.
Lemma ambles_fine : amble_ok e st.
Proof using All.
  intros S4 s. rewrite Same in S4. rewrite bursts_none, (seamless_none S4). unfold with_ambles. rewrite bursts_none, (seamless_none S4). cbn [N.sub]. rewrite N.mul_0_r.
  split; [reflexivity|]. split; [lia|reflexivity].
Qed.
Lemma ambles_free s : (amble_static e st s == 0 /\ amble_dynamic e st s == 0)%Q.
Proof using All.
  assert (is_std e <> DDR4 \/ fi_std p = DDR4) as [N4|S4] by (rewrite <- Same; destruct (is_std e); auto; left; discriminate).
  { unfold amble_static, amble_dynamic. destruct (is_std e); try (split; reflexivity). contradiction. }
  unfold amble_static, amble_dynamic. rewrite Same, S4. unfold with_ambles. rewrite bursts_none, (seamless_none S4). cbn [N.sub]. rewrite N.mul_0_r. change (qn 0) with (0%Q). split; destruct (ln_term _); try reflexivity; ring.
Qed.
Lemma toggling_fine : toggling_ok e st.
Proof using All.
  intros S5. rewrite Same in S5. pose proof (ca_term _ _ _ _ _ Calm S5) as Te. cbn [impedance] in Te.
  assert (sim = None \/ sim <> None) as [E|E] by (destruct sim; [right; discriminate|left; reflexivity]).
  - destruct (no_toggling_counts p e sim cs t i0 i st Sz G6 New Good Fits Ends Run Win Calm E) as [H1 H2]. split; right; right; cbn [count_at bus_at]; rewrite ?H1, ?H2; reflexivity.
  - destruct (Te E) as [H1 H2]. split; left; assumption.
Qed.

Theorem interface_energy : exists x, calculateEnergy e st = Exactly x /\
  forall s, (statics x s == qsum (wire_static p e sim cs t) (driven_groups p s) /\ dynamics x s == qsum (wire_dynamic p e sim cs t) (driven_groups p s))%Q.
Proof using All.
  destruct (energy_closed e st (ca_usable _ _ _ _ _ Calm) ambles_fine toggling_fine) as (x & E & H). exists x. split; [exact E|].
  intros s. destruct (H s) as [H1 H2]. destruct (ambles_free s) as [A1 A2]. rewrite H1, H2. unfold static_energy, dynamic_energy. rewrite A1, A2, !Qplus_0_r. rewrite Same. unfold driven_groups.
  pose proof (wires_count p e sim cs t i0 i st Sz G6 New Good Fits Ends Run Win Calm) as W. unfold group_count in W.
  split; apply qsum_ext; intros g Hg; apply filter_In in Hg as [Hg _].
  - unfold static_of, wire_static. destruct (ln_term (impedance e g)); [|reflexivity]. rewrite static_sum, Same, (W g _ Hg) by (left; reflexivity). reflexivity.
  - unfold dynamic_of, wire_dynamic. rewrite dynamic_sum, (W g ZeroesToOnes Hg) by (right; reflexivity). reflexivity.
Qed.
End Energy.

(* ---- the program ---- *)
Lemma calm_bounds p e sim cs t : InterfaceSpec.sizes_ok p -> calm p e sim cs t -> t * ca_beats (fi_std p) + 64 < two64 /\ t * fi_rate p < two64.
Proof.
  intros Sz C. pose proof (ca_small _ _ _ _ _ C) as S. assert (ca_beats (fi_std p) <= 2) as B by (destruct (fi_std p); cbn; lia). pose proof (proj1 Sz) as L. split.
  - eapply N.le_lt_trans; [|exact S]. apply N.add_le_mono_r. rewrite <- N.mul_assoc. apply N.mul_le_mono_l. transitivity (2 * 1); [lia|]. apply N.mul_le_mono; lia.
  - eapply N.le_lt_trans; [|exact S]. transitivity (t * (fi_rate p + dqs_rate p + 2) * (dq_lines p + 32)); [|apply N.le_add_r]. rewrite <- N.mul_assoc. apply N.mul_le_mono_l.
    transitivity (fi_rate p * 1); [lia|]. apply N.mul_le_mono; lia.
Qed.
Definition sim_good (sim : option toggle_def) : Prop := match sim with Some d => good_toggle d | None => True end.
Lemma final_all cs t : nondecreasing 0 (map cmd_ts cs) -> final_time 0 (map cmd_ts cs) <= t -> Forall (fun c => cmd_ts c <= t) cs.
Proof.
  generalize 0 as a. induction cs as [|c cs IH]; intros a N F; [constructor|]. cbn [map nondecreasing final_time] in *. destruct N as [N1 N2].
  constructor; [|eapply IH; eassumption]. etransitivity; [|exact F]. clear -N2. exact (CoreHistory.nondecreasing_final _ _ N2).
Qed.

Theorem program_energy p I text cs d0 : parse_command_list text = Value (Some cs) -> views_agree p -> same_memory (dp_core p) (dp_ce p) -> dram_new p = Value d0 ->
  DeviceSpec.well_formed (dp_core p) -> EnergySpec.well_formed (dp_ce p) -> backgrounds (dp_ce p) I -> sim_good (dp_sim p) ->
  InterfaceSpec.sizes_ok (dp_if p) -> (fi_std (dp_if p) = LPDDR6 -> fi_groups (dp_if p) = 4) ->
  let t := final_time 0 (map cmd_ts cs) in
  timely (dp_core p) cs t -> legal_history (dp_core p) cs -> trace_fits (dp_if p) (no_toggle (dp_sim p)) cs -> calm (dp_if p) (dp_ie p) (dp_sim p) cs t ->
  exists en ie, program p text = Printed (Exactly en) (Exactly ie) (Exactly (en_total en + ie_total ie)%Q) /\
    (en_total en == core_charge (dp_core p) (dp_ce p) I cs t)%Q /\
    forall s, (statics ie s == qsum (wire_static (dp_if p) (dp_ie p) (dp_sim p) cs t) (driven_groups (dp_if p) s) /\
               dynamics ie s == qsum (wire_dynamic (dp_if p) (dp_ie p) (dp_sim p) cs t) (driven_groups (dp_if p) s))%Q.
Proof.
  intros Pa V SM New Wf We Bg Go Sz G6 t Ti Le Fi Ca.
  assert (exists i0, iface_new (dp_if p) (dp_sim p) = Value i0) as (i0 & Ni) by (unfold dram_new in New; apply bind_inv in New as (x & X & _); eexists; exact X).
  destruct (trace_goes _ _ i0 cs Sz G6 Ni Fi) as (i & Ri & _).
  pose proof Ti as (Nd & _ & _ & _ & _).
  assert (Forall (fun c => cmd_ts c <= t) cs) as En by (apply final_all; [exact Nd|apply N.le_refl]).
  destruct (calm_bounds _ _ _ _ _ Sz Ca) as [B1 B2].
  destruct (window_goes _ _ i0 cs i t sim_stats0 Sz G6 Ni Fi Ri En B1 B2) as (st & Wi).
  destruct (legal_history_accepted _ _ _ Wf Ti Le) as (s & Rs).
  destruct (core_energy_charge _ _ I cs t s Wf We SM Bg Ti Le Rs) as (en & E1 & E2).
  assert (is_std (dp_ie p) = fi_std (dp_if p)) as Sa by (rewrite (va_ie p V), (va_if p V); reflexivity).
  destruct (interface_energy _ _ _ cs t i0 i st Sa Sz G6 Ni Go Fi En Ri Wi Ca) as (ie & E3 & E4).
  exists en, ie. split; [|split; [exact E2|exact E4]].
  apply (proj2 (program_result p text cs _ _ _ Pa V Nd)). exists s, i0, i, st. repeat (split; [assumption|]). fold t. rewrite E1, E3.
  split; [reflexivity|]. split; [reflexivity|]. reflexivity.
Qed.

Theorem whole_program w sim grow wild I ls cs : sound w -> rw_banks w < 2 ^ 60 -> sim_good sim ->
  exists m, mem_new w = Value m /\
  (Forall line_ok ls -> no_mark (lines_text ls) -> Forall2 (fun l c => proper (fields (li_cells l)) c) ls cs -> backgrounds (energy_view m) I ->
   let t := final_time 0 (map cmd_ts cs) in
   timely (core_view m) cs t -> legal_history (core_view m) cs -> trace_fits (interface_view m grow wild) (no_toggle sim) cs ->
   calm (interface_view m grow wild) (ifenergy_view m) sim cs t ->
   exists en ie, program (views m sim grow wild) (lines_text ls) = Printed (Exactly en) (Exactly ie) (Exactly (en_total en + ie_total ie)%Q) /\
    (en_total en == core_charge (core_view m) (energy_view m) I cs t)%Q /\
    forall s, (statics ie s == qsum (wire_static (interface_view m grow wild) (ifenergy_view m) sim cs t) (driven_groups (interface_view m grow wild) s) /\
               dynamics ie s == qsum (wire_dynamic (interface_view m grow wild) (ifenergy_view m) sim cs t) (driven_groups (interface_view m grow wild) s))%Q).
Proof.
  intros So Hb Go. destruct (sound_works w sim grow wild So Hb Go) as (m & d & M & D & W1 & W2 & W3 & W4). exists m. split; [exact M|].
  intros L1 L2 L3 Bg t Ti Le Fi Ca. destruct (parts_agree w m sim grow wild M) as [V SM].
  exact (program_energy (views m sim grow wild) I (lines_text ls) cs d (trace_read ls cs L1 L2 L3) V SM D W1 W2 Bg Go W3 W4 Ti Le Fi Ca).
Qed.
