(* Waiting on the wires and in what the program prints. *)
From Coq Require Import NArith QArith List Bool Arith Lia.
From Verif Require Import Base Command CoreModel Bits WaveSpec BitFacts BusProofs ClockProofs ToggleModel ToggleProofs StatsModel StatsSpec EnergyModel EnergySpec EnergyProofs IfEnergyModel IfEnergySpec
  InterfaceModel InterfaceSpec WireSpec HistorySpec DeviceSpec DramModel DramSpec ProgressSpec ChargeSpec ChargeProofs ComposeSpec CliModel MemSpecModel MemSpecSpec WholeSpec WholeWires ProgressQuery ProgressProofs
  WholeProofs LocalSpec LocalProofs SettleSpec SettlePower JoinSpec JoinProofs JoinTop IdleSpec.
Import ListNotations.
Local Open Scope N_scope.
Ltac Zify.zify_post_hook ::= idtac.

(* ---- lines at rest ---- *)
Lemma lines_all w (f : nat -> bool) b : (forall j, (j < w)%nat -> f j = b) -> lines w f = if b then N.of_nat w else 0.
Proof.
  intros H. unfold lines. assert (filter f (seq 0 w) = if b then seq 0 w else []) as ->; [|destruct b; [now rewrite seq_length|reflexivity]].
  assert (forall i, In i (seq 0 w) -> f i = b) as K by (intros i Hi; apply in_seq in Hi; apply H; lia). clear H.
  induction (seq 0 w) as [|i l IH]; [destruct b; reflexivity|]. cbn [filter]. rewrite (K i) by (left; reflexivity). rewrite IH by (intros j Hj; apply K; right; exact Hj). destruct b; reflexivity.
Qed.
Lemma rest_beat w high : beat_stats w (idle_word w high) (idle_word w high) = steady high (N.of_nat w).
Proof.
  assert (forall j, (j < w)%nat -> WaveSpec.level (idle_word w high) j = high) as L.
  { intros j Hj. unfold idle_word. rewrite level_word_of. destruct (Nat.ltb_spec j w); [reflexivity|lia]. }
  unfold beat_stats. rewrite (lines_all w _ high), (lines_all w _ (negb high)), !(lines_all w _ false).
  - destruct high; reflexivity.
  - intros j Hj. rewrite L by exact Hj. destruct high; reflexivity.
  - intros j Hj. rewrite L by exact Hj. destruct high; reflexivity.
  - intros j Hj. rewrite L by exact Hj. destruct high; reflexivity.
  - intros j Hj. rewrite L by exact Hj. reflexivity.
  - exact L.
Qed.
Lemma rest_wave w high n : wave_stats w (idle_word w high) [] n = steady high (n * N.of_nat w).
Proof.
  unfold wave_stats. rewrite (sum_beats_const (beat_stats w (idle_word w high) (idle_word w high))).
  - rewrite rest_beat, N2Nat.id. unfold scale, steady. destruct high; cbn [ones zeroes changes o2z z2o]; rewrite ?N.mul_0_r; reflexivity.
  - intros i _. unfold wire_before. destruct (i =? 0); reflexivity.
Qed.
Lemma rest_split w high ds T n : Forall (fun d => drive_end d < T) ds ->
  wave_stats w (idle_word w high) ds (T + n) = WaveSpec.add_exact (wave_stats w (idle_word w high) ds T) (steady high (n * N.of_nat w)).
Proof. intros H. rewrite <- rest_wave, <- (wave_join w _ ds [] T n H). unfold shifted. cbn [map]. rewrite app_nil_r. reflexivity. Qed.

Lemma none_driven width rate n : beats_driven width rate true [] n = 0.
Proof. unfold beats_driven, beats. apply (lines_all _ _ false). reflexivity. Qed.
Lemma rest_estimate p read cs T n r du (hi : bool) : quiet p false cs T ->
  let busy m := beats_driven (dq_lines p) (fi_rate p) true (burst_lengths p read cs) m in
  estimate (dq_lines p) (busy (T * fi_rate p + n * fi_rate p)) (T * fi_rate p + n * fi_rate p - busy (T * fi_rate p + n * fi_rate p)) r du hi =
  add_exact (estimate (dq_lines p) (busy (T * fi_rate p)) (T * fi_rate p - busy (T * fi_rate p)) r du hi) (steady hi (n * (dq_lines p * fi_rate p))).
Proof.
  intros Q. cbv beta zeta. pose proof (driven_join (dq_lines p) (fi_rate p) T (burst_lengths p read cs) [] (n * fi_rate p) (lengths_ends p read cs T Q) ltac:(constructor)) as H.
  cbn [map] in H. rewrite app_nil_r, none_driven, N.add_0_r in H. rewrite H.
  pose proof (driven_le (dq_lines p) (fi_rate p) (burst_lengths p read cs) (T * fi_rate p)) as L.
  set (b := beats_driven _ _ _ _ (T * fi_rate p)) in *. replace (T * fi_rate p + n * fi_rate p - b) with ((T * fi_rate p - b) + n * fi_rate p) by lia.
  unfold estimate, add_exact, steady. destruct hi; cbn [ones zeroes changes o2z z2o]; f_equal; lia.
Qed.

Theorem waiting_counts p sim cs T n : quiet p (no_toggle sim) cs T ->
  forall g, wire_counts p sim cs (T + n) g = WaveSpec.add_exact (wire_counts p sim cs T g) (idle_counts p sim n g).
Proof.
  intros Q g. unfold wire_counts, data_counts. cbv zeta.
  assert (forall x, add_exact x stats0 = x) as Z by (intros [a b c d f]; unfold add_exact, stats0; cbn; rewrite !N.add_0_r; reflexivity).
  assert (forall r k, k = 2 * r * n -> scale 2 (periods r (T + n)) = add_exact (scale 2 (periods r T)) (alternating k)) as P.
  { intros r k ->. rewrite periods_sum. f_equal. unfold scale, periods, alternating. cbn [ones zeroes changes o2z z2o]. f_equal; lia. }
  assert (forall w (hi : bool) i, steady hi (n * i * N.of_nat w) = steady hi (n * (N.of_nat w * i))) as Pl by (intros w hi i; f_equal; lia).
  destruct g; cbn [idle_counts edges places rest_level]; rewrite ?Z, ?N.mul_add_distr_r; try reflexivity.
  - apply P. lia.
  - destruct (fi_wck_on p); [apply P; lia|]. rewrite N.mul_0_r. change (alternating 0) with stats0. now rewrite Z.
  - rewrite <- Pl. apply rest_split, ca_over, Q.
  - destruct sim as [d|]; unfold dq_level, high; [apply rest_estimate, Q|].
    rewrite (N.mul_comm (dq_lines p)), N.mul_assoc. rewrite <- (N2Nat.id (dq_lines p)) at 5. apply rest_split, data_over, Q.
  - destruct sim as [d|]; unfold dq_level, high; [apply rest_estimate, Q|].
    rewrite (N.mul_comm (dq_lines p)), N.mul_assoc. rewrite <- (N2Nat.id (dq_lines p)) at 5. apply rest_split, data_over, Q.
Qed.

(* ---- energies ---- *)
Lemma qn_mul a b : (qn (a * b) == qn a * qn b)%Q.
Proof. unfold qn. rewrite N2Z.inj_mul, inject_Z_mult. reflexivity. Qed.
Lemma idle_field p sim n g : field_at (idle_counts p sim n g) (burning (fi_std p)) = n * wasted p sim g /\ z2o (idle_counts p sim n g) = n * edges p g.
Proof.
  assert (forall s (h : bool) k, field_at (steady h k) (burning s) = if eqb h (burns s) then k else 0) as S1 by (intros [] [] k; reflexivity).
  assert (forall (h : bool) k, z2o (steady h k) = 0) as S2 by (intros [] k; reflexivity).
  assert (forall s k, field_at (alternating k) (burning s) = k) as A1 by (intros [] k; reflexivity).
  assert (forall k, z2o (alternating k) = k) as A2 by reflexivity.
  assert (forall s, field_at stats0 (burning s) = 0) as Z1 by (intros []; reflexivity).
  unfold idle_counts, wasted. destruct g; rewrite ?A1, ?A2, ?S1, ?S2, ?Z1; cbn [edges places]; destruct (eqb _ _); split; cbn [z2o stats0]; lia.
Qed.
Theorem waiting_static p e sim cs T n : quiet p (no_toggle sim) cs T -> forall g,
  (wire_static p e sim cs (T + n) g == wire_static p e sim cs T g + qn n * idle_static p e sim g)%Q.
Proof.
  intros Q g. unfold wire_static, idle_static. destruct (ln_term (impedance e g)); [|ring].
  rewrite (waiting_counts p sim cs T n Q g), field_sum, qn_sum, (proj1 (idle_field p sim n g)), qn_mul. ring.
Qed.
Theorem waiting_dynamic p e sim cs T n : quiet p (no_toggle sim) cs T -> forall g,
  (wire_dynamic p e sim cs (T + n) g == wire_dynamic p e sim cs T g + qn n * idle_dynamic p e g)%Q.
Proof.
  intros Q g. unfold wire_dynamic, idle_dynamic. rewrite (waiting_counts p sim cs T n Q g). cbn [WaveSpec.add_exact z2o].
  rewrite qn_sum, (proj2 (idle_field p sim n g)), qn_mul. ring.
Qed.

(* Only clocks cost anything, unless the toggling rates say otherwise. *)
Theorem idle_free p e g : is_clock g = false -> (idle_static p e None g == 0 /\ idle_dynamic p e g == 0)%Q.
Proof.
  intros C. assert (edges p g = 0 /\ wasted p None g = 0) as [E W].
  { unfold wasted. destruct g; try discriminate C; cbn [edges places rest_level dq_level]; unfold ca_rests_high, dq_rests_high, burns; destruct (fi_std p); split; reflexivity. }
  unfold idle_static, idle_dynamic. rewrite E, W. change (qn 0) with 0%Q. destruct (ln_term _); split; ring.
Qed.

(* ---- the marker at the end ---- *)
Lemma end_wires p sim cs c x t g : end_at c x -> wire_counts p sim (cs ++ [c]) t g = wire_counts p sim cs t g.
Proof.
  intros [E _]. unfold wire_counts, data_counts. cbv zeta.
  assert (ca_drives p (no_toggle sim) [c] = []) as A by (unfold ca_drives; cbn [flat_map]; rewrite E; reflexivity).
  assert (forall w, total_cycles p (no_toggle sim) w [c] = 0) as B by (intros w; unfold total_cycles; cbn [filter]; rewrite E; reflexivity).
  assert (forall r, data_drives p r false (0, 0) (map Do [c]) = []) as D.
  { intros r. cbn [map data_drives]. unfold sends. rewrite E. reflexivity. }
  assert (forall r, burst_lengths p r [c] = []) as F by (intros r; unfold burst_lengths; cbn [flat_map]; rewrite E; reflexivity).
  rewrite !do_app. destruct g; rewrite ?ca_app, ?total_app, ?data_app, ?lengths_app, ?A, ?B, ?D, ?F, ?app_nil_r, ?N.add_0_r; reflexivity.
Qed.
Lemma end_static p e sim cs c x t g : end_at c x -> wire_static p e sim (cs ++ [c]) t g = wire_static p e sim cs t g.
Proof. intros E. unfold wire_static. rewrite (end_wires p sim cs c x t g E). reflexivity. Qed.
Lemma end_dynamic p e sim cs c x t g : end_at c x -> wire_dynamic p e sim (cs ++ [c]) t g = wire_dynamic p e sim cs t g.
Proof. intros E. unfold wire_dynamic. rewrite (end_wires p sim cs c x t g E). reflexivity. Qed.
Lemma end_charge p e w I r cs c x t : end_at c x -> nondecreasing 0 (map cmd_ts (cs ++ [c])) -> (charge p e w I r (cs ++ [c]) t == charge p e w I r cs t)%Q.
Proof.
  intros [E _] H. rewrite (charge_with p cs [] c H), app_nil_r.
  - unfold command_charge. rewrite E. destruct (to_rank r c); ring.
  - intros d _. unfold command, in_standard, well_addressed. rewrite E. reflexivity.
Qed.

(* ---- the program ---- *)
Lemma final_end cs c : final_time 0 (map cmd_ts (cs ++ [c])) = cmd_ts c.
Proof. rewrite map_app. unfold final_time. rewrite fold_left_app. reflexivity. Qed.
Lemma split_sides p (f : group -> Q) : (qsum f (driven_groups p Controller) + qsum f (driven_groups p Dram) == qsum f (groups (fi_std p)))%Q.
Proof.
  unfold driven_groups. induction (groups (fi_std p)) as [|g l IH]; [reflexivity|]. cbn [filter].
  rewrite qsum_cons, <- IH. assert (driven_by Controller g = negb (driven_by Dram g)) as -> by (unfold driven_by; destruct (driver g); reflexivity).
  destruct (driven_by Dram g); cbn [negb]; rewrite qsum_cons; ring.
Qed.
Theorem waiting_program p I cs c1 c2 T t text1 text2 : capable p -> backgrounds (dp_ce p) I ->
  end_at c1 T -> end_at c2 t -> T <= t -> ends cs + tmax (dp_core p) <= T -> quiet (dp_if p) (no_toggle (dp_sim p)) cs T ->
  soundly p (cs ++ [c1]) -> soundly p (cs ++ [c2]) ->
  parse_command_list text1 = Value (Some (cs ++ [c1])) -> parse_command_list text2 = Value (Some (cs ++ [c2])) ->
  exists en1 ie1 en2 ie2 a1 a2, program p text1 = Printed (Exactly en1) (Exactly ie1) (Exactly a1) /\ program p text2 = Printed (Exactly en2) (Exactly ie2) (Exactly a2) /\
    (en_total en2 == en_total en1 + qn (t - T) * (es_tCK (dp_ce p) * resting_power (dp_core p) (dp_ce p) I cs T))%Q /\
    (forall s, (statics ie2 s == statics ie1 s + qn (t - T) * qsum (idle_static (dp_if p) (dp_ie p) (dp_sim p)) (driven_groups (dp_if p) s) /\
                dynamics ie2 s == dynamics ie1 s + qn (t - T) * qsum (idle_dynamic (dp_if p) (dp_ie p)) (driven_groups (dp_if p) s))%Q) /\
    (a2 == a1 + qn (t - T) * (es_tCK (dp_ce p) * resting_power (dp_core p) (dp_ce p) I cs T + idle_cost (dp_if p) (dp_ie p) (dp_sim p)))%Q.
Proof.
  intros Cp Bg E1 E2 HT HF Qu S1 S2 P1 P2.
  destruct (printed p text1 _ I Cp Bg P1 S1) as (en1 & ie1 & X1 & Y1 & Z1). destruct (printed p text2 _ I Cp Bg P2 S2) as (en2 & ie2 & X2 & Y2 & Z2).
  unfold ends in Y1, Z1, Y2, Z2. rewrite final_end in Y1, Z1, Y2, Z2. rewrite (proj2 E1) in Y1, Z1. rewrite (proj2 E2) in Y2, Z2.
  pose proof (so_timely _ _ S1) as T1. pose proof (so_timely _ _ S2) as T2. unfold ends in T1, T2. rewrite final_end in T1, T2. rewrite (proj2 E1) in T1. rewrite (proj2 E2) in T2.
  pose proof (timely_without _ _ _ _ _ T2) as T0. rewrite app_nil_r in T0.
  pose proof (without_legal _ _ _ _ _ T2 (so_legal _ _ S2)) as L0. rewrite app_nil_r in L0. specialize (L0 ltac:(right; right; right; apply E2)).
  replace t with (T + (t - T)) in Y2, Z2 by lia. set (n := t - T) in *.
  assert (en_total en2 == en_total en1 + qn n * (es_tCK (dp_ce p) * resting_power (dp_core p) (dp_ce p) I cs T))%Q as Ce.
  { rewrite Y1, Y2. unfold core_charge, resting_power. rewrite Qmult_assoc, <- qsum_scale, <- qsum_plus. apply qsum_ext. intros w _. rewrite <- qsum_scale, <- qsum_plus. apply qsum_ext. intros r Hr. apply in_seq in Hr.
    rewrite (end_charge _ _ _ _ _ _ _ _ _ E1 (proj1 T1)), (end_charge _ _ _ _ _ _ _ _ _ E2 (proj1 T2)).
    pose proof (settled_charge (dp_core p) (dp_ce p) w (I w) r cs T (cp_core p Cp) L0 ltac:(lia) HF (N.to_nat n)) as K. rewrite N2Nat.id in K.
    rewrite K by (replace (T + n) with t by (unfold n; lia); exact T0).
    assert (qnat (N.to_nat n) == qn n)%Q as -> by (rewrite <- qn_nat, N2Nat.id; reflexivity). ring. }
  assert (forall s, (statics ie2 s == statics ie1 s + qn n * qsum (idle_static (dp_if p) (dp_ie p) (dp_sim p)) (driven_groups (dp_if p) s) /\
                dynamics ie2 s == dynamics ie1 s + qn n * qsum (idle_dynamic (dp_if p) (dp_ie p)) (driven_groups (dp_if p) s))%Q) as Ie.
  { intros s. destruct (Z1 s) as [U1 V1]. destruct (Z2 s) as [U2 V2]. rewrite U1, U2, V1, V2, <- !qsum_scale, <- !qsum_plus. split; apply qsum_ext; intros g _.
    - rewrite (end_static _ _ _ _ _ _ _ _ E1), (end_static _ _ _ _ _ _ _ _ E2). apply waiting_static, Qu.
    - rewrite (end_dynamic _ _ _ _ _ _ _ _ E1), (end_dynamic _ _ _ _ _ _ _ _ E2). apply waiting_dynamic, Qu. }
  exists en1, ie1, en2, ie2. do 2 eexists. split; [exact X1|]. split; [exact X2|]. split; [exact Ce|]. split; [exact Ie|].
  rewrite Ce, !total_sides. destruct (Ie Controller) as [K1 K2]. destruct (Ie Dram) as [K3 K4]. rewrite K1, K2, K3, K4. unfold idle_cost.
  rewrite qsum_plus, <- (split_sides (dp_if p) (idle_static _ _ _)), <- (split_sides (dp_if p) (idle_dynamic _ _)). ring.
Qed.

(* ---- when the wires are quiet ---- *)
Lemma words_few p bus c : (length (command_words p bus c) <= 4 * N.to_nat (ca_beats (fi_std p)))%nat.
Proof.
  unfold command_words, table_of. destruct (fi_std p); rewrite InterfaceCa.words_length; destruct (cmd_type c); try (vm_compute; lia); destruct (fi_arch p); vm_compute; lia.
Qed.
Lemma last_greatest l : forall f, nondecreasing f l -> forall x, In x l -> x <= final_time f l.
Proof.
  unfold final_time. assert (forall l f, nondecreasing f l -> f <= fold_left (fun _ t => t) l f) as G.
  { clear l. induction l as [|y l IH]; intros f H; cbn in *; [lia|]. destruct H as [A B]. specialize (IH y B). lia. }
  induction l as [|y l IH]; intros f H x []; cbn in *; destruct H as [A B]; [subst y; apply G, B|]. apply IH; assumption.
Qed.
Theorem quiet_soon p bus cs B T : 0 < fi_rate p -> nondecreasing 0 (map cmd_ts cs) -> Forall (fun c => transfers (cmd_type c) <> None -> burst_cycles p bus c < B) cs ->
  ends cs + B <= T -> ends cs + 5 <= T -> quiet p bus cs T.
Proof.
  intros Hr Nd F HB HT. apply Forall_forall. intros c Hc. rewrite Forall_forall in F. specialize (F c Hc).
  assert (cmd_ts c <= ends cs) as L by (apply (last_greatest _ _ Nd), in_map, Hc).
  split; [lia|]. split.
  - intros _. pose proof (words_few p bus c) as W. assert (0 < ca_beats (fi_std p)) as C by (destruct (fi_std p); reflexivity). nia.
  - intros X. specialize (F X). unfold burst_cycles in F. pose proof (N.mul_succ_div_gt (burst_beats p bus c) (fi_rate p) ltac:(lia)). nia.
Qed.
(* ---- what the interface reports ---- *)
Lemma calm_longer p e sim cs T t : T <= t -> countable p t -> calm p e sim cs T -> calm p e sim cs t.
Proof. intros L Sm [A B C D E F G]. split; auto. eapply order_until; eassumption. Qed.
(* Where the interface reports the counts of the data lines of one direction. *)
Theorem waiting_statistics p e sim i0 i cs T n : InterfaceSpec.sizes_ok p -> (fi_std p = LPDDR6 -> fi_groups p = 4) -> sim_good sim -> iface_new p sim = Value i0 ->
  trace_fits p (no_toggle sim) cs -> calm p e sim cs T -> quiet p (no_toggle sim) cs T -> countable p (T + n) -> calls_run (map Do cs) i0 = Value i ->
  exists st st', if_window i T sim_stats0 = Value st /\ if_window i (T + n) sim_stats0 = Value st' /\
    ss_clock st' = add_exact (ss_clock st) (idle_counts p sim n CK) /\
    (two_clocks (fi_std p) = true -> ss_wClock st' = add_exact (ss_wClock st) (idle_counts p sim n WCK)) /\
    ss_commandBus st' = add_exact (ss_commandBus st) (idle_counts p sim n CA) /\
    match sim with
    | None => ss_readBus st' = add_exact (ss_readBus st) (idle_counts p sim n RDQ) /\ ss_writeBus st' = add_exact (ss_writeBus st) (idle_counts p sim n WDQ)
    | Some _ => ss_togRead st' = add_exact (ss_togRead st) (idle_counts p sim n RDQ) /\ ss_togWrite st' = add_exact (ss_togWrite st) (idle_counts p sim n WDQ)
    end /\
    ss_readDQS st' = ss_readDQS st /\ (two_clocks (fi_std p) = false -> ss_writeDQS st' = ss_writeDQS st).
Proof.
  intros Sz G6 Go New Fi Ca Qu Sm Ri.
  assert (Forall (fun c => cmd_ts c <= T) cs) as En by (eapply Forall_impl; [|exact Qu]; intros c Hc; apply Hc).
  assert (forall u, calm p e sim cs u -> Forall (fun c => cmd_ts c <= u) cs ->
    exists st, if_window i u sim_stats0 = Value st /\ ss_commandBus st = wire_counts p sim cs u CA /\ ss_clock st = wire_counts p sim cs u CK /\ ss_readDQS st = wire_counts p sim cs u RDQS /\
      (two_clocks (fi_std p) = true -> ss_wClock st = wire_counts p sim cs u WCK) /\ (two_clocks (fi_std p) = false -> ss_writeDQS st = wire_counts p sim cs u WDQS) /\
      match sim with
      | None => ss_readBus st = wire_counts p sim cs u RDQ /\ ss_writeBus st = wire_counts p sim cs u WDQ
      | Some _ => ss_togRead st = wire_counts p sim cs u RDQ /\ ss_togWrite st = wire_counts p sim cs u WDQ
      end) as K.
  { intros u Cu Eu. destruct (calm_bounds p e sim cs u Sz Cu) as [B1 B2].
    destruct (window_goes p sim i0 cs i u sim_stats0 Sz G6 New Fi Ri Eu B1 B2) as (st & Wi). exists st. split; [exact Wi|].
    split; [exact (wires_ca p e sim cs u i0 i st Sz G6 New Go Fi Eu Ri Wi Cu)|]. split; [exact (wires_ck p e sim cs u i0 i st Sz G6 New Go Fi Eu Ri Wi Cu)|].
    destruct (wires_dqs p e sim cs u i0 i st Sz G6 New Go Fi Eu Ri Wi Cu) as [Q1 Q2]. split; [exact Q1|].
    split; [intros Tw; exact (wires_wck p e sim cs u i0 i st Sz G6 New Go Fi Eu Ri Wi Cu Tw)|]. split; [exact Q2|].
    destruct (wires_data p e sim cs u i0 i st Sz G6 New Go Fi Eu Ri Wi Cu) as (r & w & -> & -> & [(D1 & D2 & _ & _ & ->)|(_ & _ & D1 & D2 & X)]); [split; assumption|].
    destruct sim; [split; assumption|contradiction]. }
  destruct (K T Ca En) as (st & W & A1 & A2 & A3 & A4 & A5 & A6).
  destruct (K (T + n)) as (st' & W' & B1 & B2 & B3 & B4 & B5 & B6); [apply (calm_longer p e sim cs T); [lia|exact Sm|exact Ca]|eapply Forall_impl; [|exact En]; cbn beta; intros; lia|].
  exists st, st'. split; [exact W|]. split; [exact W'|]. rewrite A1, A2, A3, B1, B2, B3. split; [apply waiting_counts, Qu|].
  split; [intros Tw; rewrite (A4 Tw), (B4 Tw); apply waiting_counts, Qu|]. split; [apply waiting_counts, Qu|].
  split; [destruct sim; destruct A6 as [-> ->]; destruct B6 as [-> ->]; split; apply waiting_counts, Qu|]. split; [reflexivity|].
  intros Tw. rewrite (A5 Tw), (B5 Tw). reflexivity.
Qed.
