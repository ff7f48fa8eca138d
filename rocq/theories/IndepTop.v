(* What the statistics and energies of a memory depend on. *)
From Coq Require Import NArith QArith List Bool Lia.
From Verif Require Import Base Command CoreModel Bits HistorySpec CoreHistory StatsModel StatsSpec PatternSpec PatternModel BusModel ToggleModel DbiModel DbiPinModel FormatModel FormatProofs DataProofs
  EnergyModel IfEnergyModel InterfaceModel InterfaceSpec InterfaceCa InterfaceTop DramModel DramSpec DramProofs IndepSpec IndepProofs.
Import ListNotations.
Local Open Scope N_scope.
Ltac Zify.zify_post_hook ::= idtac.

(* ---------------- core ---------------- *)
Lemma core_command p c d s : core_view c = core_view d -> do_command p c s = do_command p d s.
Proof. unfold core_view. intros E. injection E as E1 E2 E3 E4 E5. unfold do_command, dispatch. rewrite E1, E2, E3, E4, E5. reflexivity. Qed.
Theorem core_same p : forall os os' s, map op_view os = map op_view os' -> run_ops p os s = run_ops p os' s.
Proof.
  induction os as [|o os IH]; intros [|o' os'] s E; try discriminate; [reflexivity|]. cbn [map] in E. injection E as E1 E2.
  destruct o as [c|t], o' as [c'|t']; cbn [op_view] in E1; try discriminate; cbn [run_ops].
  - injection E1 as _ E1. rewrite (core_command p c c') by (unfold core_view; congruence). destruct (do_command p c' s); auto.
  - injection E1 as ->. destruct (window_stats p t' s). rewrite (IH os' c E2). reflexivity.
Qed.

(* ---------------- interface ---------------- *)
Lemma window_dbi i t st st' : if_window i t st = Value st' ->
  exists r w, dbi_stats i t true = Value r /\ dbi_stats i t false = Value w /\ ss_readDBI st' = stats_add (ss_readDBI st) r /\ ss_writeDBI st' = stats_add (ss_writeDBI st) w /\
    fill_ranks i (ss_rank st) = Value (ss_rank st').
Proof.
  unfold if_window. cbv zeta. intros E. apply bind_inv in E as (ranks & E1 & E). apply bind_inv in E as (cmd & E2 & E). apply bind_inv in E as (d & E3 & E).
  apply bind_inv in E as (rd & E4 & E). apply bind_inv in E as (wd & E5 & E). apply value_inj in E. subst st'. exists rd, wd. cbn. auto.
Qed.
Section Two.
  Context (xs ys : list call) (i a b : iface) (t : N) (st sa sb : sim_stats).
  Context (Ra : calls_run xs i = Value a) (Rb : calls_run ys i = Value b) (Wa : if_window a t st = Value sa) (Wb : if_window b t st = Value sb).
  Lemma data_stats_same : seen data_view xs = seen data_view ys ->
    forall n, In n [ReadBus; WriteBus; TogglingRead; TogglingWrite; ReadDBI; WriteDBI] -> StatsSpec.bus_at sa n = StatsSpec.bus_at sb n.
  Proof using Ra Rb Wa Wb.
    intros S. pose proof (data_parts _ _ _ _ _ S Ra Rb) as P. injection P as P1 P2 P3 P4 P5.
    destruct (window_fields _ _ _ _ Wa) as (_ & (da & A1 & A2 & A3 & A4 & A5) & _). destruct (window_fields _ _ _ _ Wb) as (_ & (db & B1 & B2 & B3 & B4 & B5) & _).
    rewrite P2 in A1. assert (da = db) as -> by congruence.
    destruct (window_dbi _ _ _ _ Wa) as (ra & wa & C1 & C2 & C3 & C4 & _). destruct (window_dbi _ _ _ _ Wb) as (rb & wb & D1 & D2 & D3 & D4 & _).
    unfold dbi_stats in *. rewrite P3 in C1, C2. assert (ra = rb) as -> by congruence. assert (wa = wb) as -> by congruence.
    intros n Hn. cbn [In] in Hn. repeat destruct Hn as [<-|Hn]; try contradiction; cbn [StatsSpec.bus_at]; congruence.
  Qed.
  Lemma estimates_same : d_mode (if_data i) = ModeToggling -> seen burst_view xs = seen burst_view ys ->
    forall n, In n [ReadBus; WriteBus; TogglingRead; TogglingWrite] -> StatsSpec.bus_at sa n = StatsSpec.bus_at sb n.
  Proof using Ra Rb Wa Wb.
    intros M S. pose proof (estimate_parts _ _ _ _ _ M S Ra Rb) as P. injection P as P1 P2.
    destruct (window_fields _ _ _ _ Wa) as (_ & (da & A1 & A2 & A3 & A4 & A5) & _). destruct (window_fields _ _ _ _ Wb) as (_ & (db & B1 & B2 & B3 & B4 & B5) & _).
    rewrite P2 in A1. assert (da = db) as -> by congruence.
    intros n Hn. cbn [In] in Hn. repeat destruct Hn as [<-|Hn]; try contradiction; cbn [StatsSpec.bus_at]; congruence.
  Qed.
  Lemma strobes_same : seen strobe_view xs = seen strobe_view ys -> forall n, In n [ReadDQS; WriteDQS; WClockStats] -> StatsSpec.bus_at sa n = StatsSpec.bus_at sb n.
  Proof using Ra Rb Wa Wb.
    intros S. pose proof (strobe_parts _ _ _ _ _ S Ra Rb) as P. injection P as P1 P2 P3 P4 P5 P6.
    destruct (window_fields _ _ _ _ Wa) as (_ & _ & _ & A1 & A2 & A3 & _). destruct (window_fields _ _ _ _ Wb) as (_ & _ & _ & B1 & B2 & B3 & _).
    intros n Hn. cbn [In] in Hn. repeat destruct Hn as [<-|Hn]; try contradiction; cbn [StatsSpec.bus_at]; rewrite ?A1, ?A2, ?A3, ?B1, ?B2, ?B3, P1, ?P3, ?P4, ?P5; reflexivity.
  Qed.
  Lemma clock_same : seen switch_view xs = seen switch_view ys -> StatsSpec.bus_at sa ClockStats = StatsSpec.bus_at sb ClockStats.
  Proof using Ra Rb Wa Wb.
    intros S. pose proof (clock_parts _ _ _ _ _ S Ra Rb) as P. injection P as P1 P2 P3.
    destruct (window_fields _ _ _ _ Wa) as (_ & _ & A1 & _). destruct (window_fields _ _ _ _ Wb) as (_ & _ & B1 & _). cbn [StatsSpec.bus_at]. congruence.
  Qed.
  Lemma commands_same : seen (command_view (fi_std (if_spec i))) xs = seen (command_view (fi_std (if_spec i))) ys -> StatsSpec.bus_at sa CommandBus = StatsSpec.bus_at sb CommandBus.
  Proof using Ra Rb Wa Wb.
    intros S. pose proof (command_parts _ _ _ i a b eq_refl S Ra Rb) as P. injection P as P1 P2 P3 P4.
    destruct (window_fields _ _ _ _ Wa) as (A1 & _). destruct (window_fields _ _ _ _ Wb) as (B1 & _). cbn [StatsSpec.bus_at]. congruence.
  Qed.
  Lemma ambles_same : seen amble_view xs = seen amble_view ys -> ss_rank sa = ss_rank sb.
  Proof using Ra Rb Wa Wb.
    intros S. pose proof (amble_parts _ _ _ _ _ S Ra Rb) as P. injection P as P1 P2 P3.
    destruct (window_dbi _ _ _ _ Wa) as (_ & _ & _ & _ & _ & _ & A). destruct (window_dbi _ _ _ _ Wb) as (_ & _ & _ & _ & _ & _ & B).
    unfold fill_ranks in A, B. rewrite P1, P3 in A. congruence.
  Qed.
End Two.

(* ---------------- matching uses ---------------- *)
Lemma seen_matching {E} (view : call -> option E) (R : Command -> Command -> Prop) us us' : (forall c d, R c d -> view (Do c) = view (Do d)) ->
  Forall2 (matching R) us us' -> seen view (iface_calls us) = seen view (iface_calls us').
Proof.
  intros H F. unfold seen, iface_calls. induction F as [|u v us us' M F IH]; [reflexivity|]. cbn [flat_map]. rewrite !flat_map_app. f_equal; [|exact IH].
  destruct M as [c d M|c d M|c d M|u]; try reflexivity; cbn [flat_map]; rewrite (H c d M); reflexivity.
Qed.
Lemma ops_matching (R : Command -> Command -> Prop) us us' : (forall c d, R c d -> core_view c = core_view d) ->
  Forall2 (matching R) us us' -> map op_view (core_ops us) = map op_view (core_ops us').
Proof.
  intros H F. unfold core_ops. induction F as [|u v us us' M F IH]; [reflexivity|]. cbn [flat_map]. rewrite !map_app. f_equal; [|exact IH].
  destruct M as [c d M|c d M|c d M|u]; try reflexivity; cbn [map op_view]; rewrite (H c d M); apply H in M; injection M as M _; rewrite M; reflexivity.
Qed.


(* ---------------- the whole object ---------------- *)
Lemma nth_cycles_same (l l' : list cycle_stats) : length l = length l' ->
  (forall j x, nth_error l j = Some x -> exists y, nth_error l' j = Some y /\ cs_cycles x = cs_cycles y) -> map cs_cycles l = map cs_cycles l'.
Proof.
  revert l'. induction l as [|x l IH]; intros [|y l'] L H; try discriminate; [reflexivity|]. cbn [map]. f_equal.
  - destruct (H 0%nat x eq_refl) as (z & E & Ez). cbn in E. injection E as <-. exact Ez.
  - apply IH; [injection L; auto|]. intros j z Hz. exact (H (S j) z Hz).
Qed.
Lemma cycles_same i j st la lb : if_spec i = if_spec j -> own_ranks i st la -> own_ranks j st lb -> map cs_cycles la = map cs_cycles lb.
Proof.
  unfold own_ranks. intros E. rewrite E. destruct (fi_std (if_spec j)); try (intros -> ->; reflexivity).
  intros [A1 A2] [B1 B2]. apply nth_cycles_same; [congruence|]. intros k x Hx. assert (k < fi_ranks (if_spec j))%nat as Hk by (rewrite <- A1; apply nth_error_Some; congruence).
  destruct (A2 k Hk) as (r & s & _ & S1 & S2). destruct (B2 k Hk) as (r' & s' & _ & S3 & S4). eexists. split; [exact S4|].
  rewrite S2 in Hx. injection Hx as <-. cbn. congruence.
Qed.
Section Object.
  Context (p : dspec) (d0 d e d1 e1 : dram) (us us' : list use) (t : N) (st st' : sim_stats).
  Context (R : uses_run p us d0 = Returned d) (R' : uses_run p us' d0 = Returned e).
  Context (W : dram_window p t d = Returned (d1, st)) (W' : dram_window p t e = Returned (e1, st')).
  Lemma object_core : map op_view (core_ops us) = map op_view (core_ops us') -> dr_core d = dr_core e.
  Proof using R R'.
    intros S. destruct (uses_split _ _ _ _ R) as [[a Ra] _]. destruct (uses_split _ _ _ _ R') as [[b Rb] _]. rewrite (core_same _ _ _ _ S) in Ra. congruence.
  Qed.
  Lemma object_core_same : map op_view (core_ops us) = map op_view (core_ops us') ->
    ss_bank st = ss_bank st' /\ map cs_cycles (ss_rank st) = map cs_cycles (ss_rank st') /\ calc_core_stats p st = calc_core_stats p st'.
  Proof using R R' W W'.
    intros S. pose proof (object_core S) as C. apply window_parts in W as (_ & _ & W1). apply window_parts in W' as (_ & _ & W2). rewrite C in W1.
    destruct (uses_split _ _ _ _ R) as [_ Ra]. destruct (uses_split _ _ _ _ R') as [_ Rb]. apply calls_spec in Ra. apply calls_spec in Rb.
    apply (window_frame _ _ _ _ _ (fun n => eq_refl)) in W1 as (x & X & _ & X1 & _ & X2 & _). apply (window_frame _ _ _ _ _ (fun n => eq_refl)) in W2 as (y & Y & _ & Y1 & _ & Y2 & _).
    assert (ss_bank st = ss_bank st') as B by congruence. assert (map cs_cycles (ss_rank st) = map cs_cycles (ss_rank st')) as Q by (eapply cycles_same; [|exact X2|exact Y2]; congruence).
    split; [exact B|]. split; [exact Q|]. apply core_energy_ext; assumption.
  Qed.
  Lemma object_buses : exists sa sb, calls_run (iface_calls us) (dr_if d0) = Value (dr_if d) /\ calls_run (iface_calls us') (dr_if d0) = Value (dr_if e) /\
    if_window (dr_if d) t sim_stats0 = Value sa /\ if_window (dr_if e) t sim_stats0 = Value sb /\ (forall n, StatsSpec.bus_at st n = StatsSpec.bus_at sa n) /\ (forall n, StatsSpec.bus_at st' n = StatsSpec.bus_at sb n).
  Proof using R R' W W'.
    apply window_parts in W as (_ & _ & W1). apply window_parts in W' as (_ & _ & W2).
    assert (forall a n, StatsSpec.bus_at (fill_core a) n = StatsSpec.bus_at sim_stats0 n) as Z by (intros a []; reflexivity).
    apply (window_frame _ _ _ _ _ (Z _)) in W1 as (sa & X & X1 & _). apply (window_frame _ _ _ _ _ (Z _)) in W2 as (sb & Y & Y1 & _).
    exists sa, sb. split; [apply (uses_split _ _ _ _ R)|]. split; [apply (uses_split _ _ _ _ R')|]. auto.
  Qed.
  Lemma object_data : seen data_view (iface_calls us) = seen data_view (iface_calls us') ->
    forall n, In n [ReadBus; WriteBus; TogglingRead; TogglingWrite; ReadDBI; WriteDBI] -> StatsSpec.bus_at st n = StatsSpec.bus_at st' n.
  Proof using R R' W W'. destruct object_buses as (sa & sb & A & B & C & D & E & F). intros S n Hn. rewrite E, F. exact (data_stats_same _ _ _ _ _ _ _ _ _ A B C D S n Hn). Qed.
  Lemma object_estimates : d_mode (if_data (dr_if d0)) = ModeToggling -> seen burst_view (iface_calls us) = seen burst_view (iface_calls us') ->
    forall n, In n [ReadBus; WriteBus; TogglingRead; TogglingWrite] -> StatsSpec.bus_at st n = StatsSpec.bus_at st' n.
  Proof using R R' W W'. destruct object_buses as (sa & sb & A & B & C & D & E & F). intros M S n Hn. rewrite E, F. exact (estimates_same _ _ _ _ _ _ _ _ _ A B C D M S n Hn). Qed.
  Lemma object_strobes : seen strobe_view (iface_calls us) = seen strobe_view (iface_calls us') ->
    forall n, In n [ReadDQS; WriteDQS; WClockStats] -> StatsSpec.bus_at st n = StatsSpec.bus_at st' n.
  Proof using R R' W W'. destruct object_buses as (sa & sb & A & B & C & D & E & F). intros S n Hn. rewrite E, F. exact (strobes_same _ _ _ _ _ _ _ _ _ A B C D S n Hn). Qed.
  Lemma object_clock : seen switch_view (iface_calls us) = seen switch_view (iface_calls us') -> StatsSpec.bus_at st ClockStats = StatsSpec.bus_at st' ClockStats.
  Proof using R R' W W'. destruct object_buses as (sa & sb & A & B & C & D & E & F). intros S. rewrite E, F. exact (clock_same _ _ _ _ _ _ _ _ _ A B C D S). Qed.
  Lemma object_commands : seen (command_view (fi_std (if_spec (dr_if d0)))) (iface_calls us) = seen (command_view (fi_std (if_spec (dr_if d0)))) (iface_calls us') ->
    StatsSpec.bus_at st CommandBus = StatsSpec.bus_at st' CommandBus.
  Proof using R R' W W'. destruct object_buses as (sa & sb & A & B & C & D & E & F). intros S. rewrite E, F. exact (commands_same _ _ _ _ _ _ _ _ _ A B C D S). Qed.
  Lemma object_ranks : map op_view (core_ops us) = map op_view (core_ops us') -> seen amble_view (iface_calls us) = seen amble_view (iface_calls us') -> ss_rank st = ss_rank st'.
  Proof using R R' W W'.
    intros S A. pose proof (object_core S) as C. destruct (uses_split _ _ _ _ R) as [_ Ra]. destruct (uses_split _ _ _ _ R') as [_ Rb].
    apply window_parts in W as (_ & _ & W1). apply window_parts in W' as (_ & _ & W2). rewrite C in W1. exact (ambles_same _ _ _ _ _ _ _ _ _ Ra Rb W1 W2 A).
  Qed.
End Object.

Section Pairs.
  Context (p : dspec) (d0 d e d1 e1 : dram) (us us' : list use) (t : N) (st st' : sim_stats).
  Context (R : uses_run p us d0 = Returned d) (R' : uses_run p us' d0 = Returned e).
  Context (W : dram_window p t d = Returned (d1, st)) (W' : dram_window p t e = Returned (e1, st')).
  Lemma payload_free : Forall2 (matching but_payload) us us' ->
    ss_bank st = ss_bank st' /\ ss_rank st = ss_rank st' /\ calc_core_stats p st = calc_core_stats p st' /\
    (forall n, In n [CommandBus; ClockStats; WClockStats; ReadDQS; WriteDQS] -> StatsSpec.bus_at st n = StatsSpec.bus_at st' n) /\
    (d_mode (if_data (dr_if d0)) = ModeToggling -> forall n, ~ In n [ReadDBI; WriteDBI] -> StatsSpec.bus_at st n = StatsSpec.bus_at st' n).
  Proof using R R' W W'.
    intros F. assert (map op_view (core_ops us) = map op_view (core_ops us')) as O
      by (apply (ops_matching but_payload); [|exact F]; intros c c' (E1 & E2 & E3 & E4 & E5 & E6 & E7 & E8 & E9); unfold core_view; congruence).
    assert (forall E (view : call -> option E), (forall c c', but_payload c c' -> view (Do c) = view (Do c')) -> seen view (iface_calls us) = seen view (iface_calls us')) as V
      by (intros E view Hv; exact (seen_matching view but_payload _ _ Hv F)).
    destruct (object_core_same _ _ _ _ _ _ _ _ _ _ _ R R' W W' O) as (A1 & A2 & A3). split; [exact A1|].
    split. { apply (object_ranks _ _ _ _ _ _ _ _ _ _ _ R R' W W' O). apply V. intros c c' (E1 & E2 & E3 & E4 & E5 & E6 & E7 & E8 & E9). unfold amble_view. rewrite E1, E2, E5, E9. reflexivity. }
    split; [exact A3|].
    assert (forall n, In n [CommandBus; ClockStats; WClockStats; ReadDQS; WriteDQS] -> StatsSpec.bus_at st n = StatsSpec.bus_at st' n) as B.
    { intros n [<-|[<-|Hn]].
      - apply (object_commands _ _ _ _ _ _ _ _ _ _ _ R R' W W'). apply V. intros c c' (E1 & E2 & E3 & E4 & E5 & E6 & E7 & E8 & E9). unfold command_view. rewrite E1, E2, E3, E4, E5, E6, E7, E9. reflexivity.
      - apply (object_clock _ _ _ _ _ _ _ _ _ _ _ R R' W W'). apply V. reflexivity.
      - apply (object_strobes _ _ _ _ _ _ _ _ _ _ _ R R' W W'); [|cbn [In] in *; tauto]. apply V. intros c c' (E1 & E2 & E3 & E4 & E5 & E6 & E7 & E8 & E9). unfold strobe_view. rewrite E1, E2, E9. reflexivity. }
    split; [exact B|]. intros M n Hn.
    assert (forall n, In n [ReadBus; WriteBus; TogglingRead; TogglingWrite] -> StatsSpec.bus_at st n = StatsSpec.bus_at st' n) as T.
    { apply (object_estimates _ _ _ _ _ _ _ _ _ _ _ R R' W W' M). apply V. intros c c' (E1 & E2 & E3 & E4 & E5 & E6 & E7 & E8 & E9). unfold burst_view. rewrite E1, E2, E9. reflexivity. }
    destruct n; (apply B; cbn; tauto) || (apply T; cbn; tauto) || (exfalso; apply Hn; cbn; tauto).
  Qed.
  Lemma place_free : Forall2 (matching but_place) us us' ->
    ss_bank st = ss_bank st' /\ ss_rank st = ss_rank st' /\ calc_core_stats p st = calc_core_stats p st' /\
    (forall n, n <> CommandBus -> StatsSpec.bus_at st n = StatsSpec.bus_at st' n).
  Proof using R R' W W'.
    intros F. assert (map op_view (core_ops us) = map op_view (core_ops us')) as O
      by (apply (ops_matching but_place); [|exact F]; intros c c' (E1 & E2 & E3 & E4 & E5 & E6 & E7); unfold core_view; congruence).
    assert (forall E (view : call -> option E), (forall c c', but_place c c' -> view (Do c) = view (Do c')) -> seen view (iface_calls us) = seen view (iface_calls us')) as V
      by (intros E view Hv; exact (seen_matching view but_place _ _ Hv F)).
    destruct (object_core_same _ _ _ _ _ _ _ _ _ _ _ R R' W W' O) as (A1 & A2 & A3). split; [exact A1|].
    split. { apply (object_ranks _ _ _ _ _ _ _ _ _ _ _ R R' W W' O). apply V. intros c c' (E1 & E2 & E3 & E4 & E5 & E6 & E7). unfold amble_view. rewrite E1, E2, E4, E7. reflexivity. }
    split; [exact A3|]. intros n Hn.
    assert (forall n, In n [ReadDQS; WriteDQS; WClockStats] -> StatsSpec.bus_at st n = StatsSpec.bus_at st' n) as S.
    { apply (object_strobes _ _ _ _ _ _ _ _ _ _ _ R R' W W'). apply V. intros c c' (E1 & E2 & E3 & E4 & E5 & E6 & E7). unfold strobe_view. rewrite E1, E2, E7. reflexivity. }
    assert (forall n, In n [ReadBus; WriteBus; TogglingRead; TogglingWrite; ReadDBI; WriteDBI] -> StatsSpec.bus_at st n = StatsSpec.bus_at st' n) as T.
    { apply (object_data _ _ _ _ _ _ _ _ _ _ _ R R' W W'). apply V. intros c c' (E1 & E2 & E3 & E4 & E5 & E6 & E7). unfold data_view. rewrite E1, E2, E6, E7. reflexivity. }
    destruct n; try (apply S; cbn; tauto); try (apply T; cbn; tauto).
    apply (object_clock _ _ _ _ _ _ _ _ _ _ _ R R' W W'). apply V. reflexivity.
  Qed.
End Pairs.
