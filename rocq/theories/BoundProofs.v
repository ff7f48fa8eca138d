(* Bounds on the power of the core. *)
From Coq Require Import ZArith QArith NArith List Bool Lia ZifyBool ZifyNat ZifyN Lqa.
From Verif Require Import Base Command CoreModel HistorySpec DeviceSpec RefineBase RefineMain DeviceFacts DeviceTop.
From Verif Require Import Bits StatsModel EnergyModel EnergySpec EnergyProofs EnergyMore DramModel ChargeSpec ChargeBase ChargeProofs ChargeTop BoundSpec.
Import ListNotations.
Local Open Scope Q_scope.

(* ---- open rows ---- *)

Definition is_act (c : Command) : bool := match cmd_type c with ACT => true | _ => false end.
Definition acts (cs : list Command) : nat := length (filter is_act cs).

Lemma rows_settle n d : (open_rows (settle n d) <= open_rows d)%nat.
Proof.
  rewrite open_now. unfold open_rows. induction (dv_banks d) as [|x l IH]; cbn [map filter]; [lia|].
  assert (row_open (settle_bank n x) = true -> row_open x = true) as H.
  { unfold row_open, settle_bank. destruct (sb_state x) eqn:E; cbn; rewrite ?E; auto. destruct (until <=? n)%N; cbn; rewrite ?E; auto. }
  destruct (row_open (settle_bank n x)); [rewrite H by reflexivity|destruct (row_open x)]; cbn [length]; lia.
Qed.
Lemma mapi_count (f : nat -> sbank -> sbank) l : forall k, (forall i b, nth_error l i = Some b -> row_open (f (k + i)%nat b) = true -> row_open b = true) ->
  (length (filter row_open (mapi k f l)) <= length (filter row_open l))%nat.
Proof.
  induction l as [|x l IH]; intros k H; cbn [mapi filter]; [lia|].
  assert (IH' : (length (filter row_open (mapi (S k) f l)) <= length (filter row_open l))%nat).
  { apply IH. intros i b Hb. specialize (H (S i) b Hb). now rewrite Nat.add_succ_r in H. }
  specialize (H 0%nat x eq_refl). rewrite Nat.add_0_r in H. destruct (row_open (f k x)); [rewrite H by reflexivity|destruct (row_open x)]; cbn [length]; lia.
Qed.
Lemma mapi_one (g : sbank -> sbank) a l : forall k, (length (filter row_open (mapi k (fun i b => if Nat.eqb a i then g b else b) l)) <= S (length (filter row_open l)))%nat.
Proof.
  induction l as [|x l IH]; intros k; cbn [mapi filter]; [lia|]. destruct (Nat.eqb_spec a k) as [->|N].
  - assert (H : (length (filter row_open (mapi (S k) (fun i b => if Nat.eqb k i then g b else b) l)) <= length (filter row_open l))%nat).
    { apply mapi_count. intros i b _. destruct (Nat.eqb_spec k (S k + i)); [lia|auto]. }
    destruct (row_open (g x)), (row_open x); cbn [length]; lia.
  - specialize (IH (S k)). destruct (row_open x); cbn [length]; lia.
Qed.
Lemma touch_count p c g l : (forall i b, nth_error l i = Some b -> footprint p c i = true -> row_open (g b) = true -> row_open b = true) ->
  (length (filter row_open (touch p c g l)) <= length (filter row_open l))%nat.
Proof. intros H. unfold touch. apply mapi_count. intros i b Hb. cbn. specialize (H i b Hb). destruct (footprint p c i); auto. Qed.
Lemma rows_command p c d d' : command p c d = Some d' -> (open_rows d' <= open_rows d + (if is_act c then 1 else 0))%nat.
Proof.
  unfold command. destruct (in_standard p (cmd_type c) && well_addressed p c); [|discriminate].
  assert (Z : forall x : device, dv_banks x = dv_banks d -> (open_rows x <= open_rows d + (if is_act c then 1 else 0))%nat) by (intros x E; unfold open_rows; rewrite E; lia).
  assert (U : up_command p c d = Some d' -> (open_rows d' <= open_rows d + (if is_act c then 1 else 0))%nat).
  { unfold up_command, guard.
    assert (R : forall e, (open_rows (with_banks (touch p c (refresh_bank (cmd_ts c) e) (dv_banks d)) d) <= open_rows d)%nat) by (intros e; apply touch_count; intros i b _ _ X; exact X || discriminate).
    assert (A : forall off, addressed p c is_open (dv_banks d) = true -> (open_rows (with_banks (touch p c (autoclose_bank p (cmd_ts c) off) (dv_banks d)) d) <= open_rows d)%nat).
    { intros off F. apply touch_count. intros i b Hb Hf _. pose proof (addressed_spec _ _ _ _ F i b Hb Hf) as O. clear F. rename O into F. unfold is_open in F. unfold row_open. destruct (sb_state b); auto; discriminate. }
    assert (P : (open_rows (with_banks (touch p c (close_bank (cmd_ts c)) (dv_banks d)) d) <= open_rows d)%nat).
    { apply touch_count. intros i b _ _. unfold close_bank, is_open, row_open. destruct (sb_state b) eqn:E; cbn; rewrite ?E; auto. }
    destruct (cmd_type c) eqn:K; try discriminate; cbn [option_map];
      repeat match goal with |- (if ?b then _ else _) = _ -> _ => destruct b eqn:? | |- option_map _ (if ?b then _ else _) = _ -> _ => destruct b eqn:?; cbn [option_map] end; try discriminate; intros [= <-];
      try (apply Z; reflexivity); try (eapply Nat.le_trans; [apply P|lia]); try (eapply Nat.le_trans; [apply R|lia]); try (eapply Nat.le_trans; [apply A; first [assumption|reflexivity]|lia]).
    - replace (is_act c) with true by (unfold is_act; now rewrite K). unfold open_rows, with_banks. cbn [dv_banks]. rewrite Nat.add_1_r. unfold touch.
      replace (mapi 0 (fun i b => if footprint p c i then open_bank (cmd_ts c) b else b) (dv_banks d)) with (mapi 0 (fun i b => if Nat.eqb (addr c) i then open_bank (cmd_ts c) b else b) (dv_banks d)); [apply mapi_one|].
      unfold footprint. now rewrite K. }
  destruct (cmd_type c) eqn:K; destruct (dv_pend d) as [[x m]|] eqn:E; try destruct (dv_mode d) eqn:M; try discriminate; auto; intros [= <-]; try (apply Z; reflexivity); cbn; lia.
Qed.

Lemma rows_run p cs : forall d d' t, run_device p cs d = Some d' -> (forall c, In c cs -> (t <= cmd_ts c)%N) -> forall n, (t <= n)%N ->
  (open_rows (settle n d') <= open_rows (settle t d) + acts cs)%nat.
Proof.
  induction cs as [|c cs IH]; intros d d' t H G n Hn; cbn [run_device] in H.
  - injection H as <-. pose proof (open_later t n d Hn). lia.
  - destruct (command p c (settle (cmd_ts c) d)) as [d1|] eqn:E; [|discriminate].
    specialize (IH d1 d' t H (fun x Hx => G x (or_intror Hx)) n Hn). pose proof (rows_command p c _ _ E) as R. pose proof (open_later t (cmd_ts c) d (G c (or_introl eq_refl))) as L.
    pose proof (rows_settle t d1) as S. unfold acts in *. cbn [filter]. destruct (is_act c); cbn [length]; lia.
Qed.

(* ---- deep sleep ---- *)

Definition sleeps_only (p : memspec) (d : device) : Prop := dv_mode d = DeepSleep \/ (exists x, dv_pend d = Some (x, DeepSleep)) -> ms_std p = LPDDR5.
Lemma sleeps_settle p n d : sleeps_only p d -> sleeps_only p (settle n d).
Proof.
  intros H. unfold sleeps_only, settle in *. destruct (dv_pend d) as [[x m]|] eqn:E; [destruct (x <=? n)%N|]; cbn [dv_mode dv_pend]; intros [M|[y Y]]; try discriminate.
  - apply H. right. exists x. now rewrite M.
  - apply H. now left.
  - apply H. right. exists x. congruence.
  - apply H. now left.
Qed.
Lemma sleeps_command p c d d' : sleeps_only p d -> command p c d = Some d' -> sleeps_only p d'.
Proof.
  unfold command. intros H. destruct (in_standard p (cmd_type c) && well_addressed p c) eqn:A; [|discriminate].
  assert (U : dv_mode d = Up -> dv_pend d = None -> up_command p c d = Some d' -> sleeps_only p d').
  { intros M N. unfold up_command, guard. destruct (cmd_type c); try discriminate; cbn [option_map];
      repeat match goal with |- (if ?b then _ else _) = _ -> _ => destruct b | |- option_map _ (if ?b then _ else _) = _ -> _ => destruct b; cbn [option_map] end; try discriminate; intros [= <-];
      intros [Y|[y Y]]; cbn in *; congruence. }
  destruct (cmd_type c) eqn:K; destruct (dv_pend d) as [[x m]|] eqn:E; try destruct (dv_mode d) eqn:M; try discriminate; auto; intros [= <-]; try exact H;
    try (intros [Y|[y Y]]; cbn in *; congruence).
  intros _. unfold in_standard in A. destruct (ms_std p); try discriminate. reflexivity.
Qed.
Lemma sleeps_run p cs : forall d d', sleeps_only p d -> run_device p cs d = Some d' -> sleeps_only p d'.
Proof.
  induction cs as [|c cs IH]; intros d d' S H; cbn [run_device] in H; [injection H as <-; exact S|].
  destruct (command p c (settle (cmd_ts c) d)) as [d1|] eqn:E; [|discriminate]. apply (IH d1); auto. eapply sleeps_command; [|exact E]. now apply sleeps_settle.
Qed.
Lemma sleeps_at p r cs n d : device_at p r cs n = Some d -> dv_mode d = DeepSleep -> ms_std p = LPDDR5.
Proof.
  unfold device_at. destruct (run_device p _ (device_new p)) as [x|] eqn:E; [|discriminate]. intros [= <-] M. assert (S : sleeps_only p (settle n x)); [|apply S; now left].
  apply sleeps_settle. eapply sleeps_run; [|exact E]. intros [Y|[y Y]]; discriminate.
Qed.

(* ---- currents ---- *)

Section Currents.
Context (e : espec) (w : power) (I : Q -> Q) (W : EnergySpec.well_formed e) (S : sane e) (B : background e w I) (D : sane_domain e w I).

Lemma slope : I 0 <= I 1.
Proof using W S B D. destruct (background_currents e w I W B) as (B0 & B1 & _). rewrite <- B0, <- B1. now apply (current_order e w I W S D). Qed.
Lemma more_banks a b : a <= b -> I a <= I b.
Proof using W S B D.
  intros H. destruct B as [L _]. rewrite (L a), (L b). pose proof slope as Z. assert (0 <= (b - a) * (I 1 - I 0)) by (apply Qmult_le_0_compat; lra). lra.
Qed.
Lemma above_standby n : 0 <= n -> pw_i2n w <= I n.
Proof using W S B D.
  intros Hn. apply Qle_trans with (I 0); [|now apply more_banks]. destruct B as (L & Z & M). rewrite Z.
  assert (1 <= qnat (es_banks e)) as HB. { pose proof (wf_banks e W). unfold qnat, Qle. cbn. lia. }
  assert (pw_i2n w <= I (qnat (es_banks e))) as HI.
  { pose proof (sd_3n e w I D). destruct (es_std e); try (rewrite M; assumption); (eapply Qle_trans; [|apply (more_banks 1); exact HB]); rewrite M; assumption. }
  destruct (sn_rho e S) as [R _]. assert (0 <= es_rho e * (I (qnat (es_banks e)) - pw_i2n w)) by (apply Qmult_le_0_compat; lra). lra.
Qed.
End Currents.

Lemma sane_same e w I : EnergySpec.well_formed e -> sane e -> In w (es_domains e) -> background e w I -> sane_domain e w I.
Proof.
  intros W S Hw B. destruct (sn_domains e S w Hw) as (J & BJ & D). pose proof (bg_unique e w I W B) as UI. pose proof (bg_unique e w J W BJ) as UJ.
  assert (E : forall n, I n == J n) by (intros n; rewrite UI, UJ; reflexivity). destruct D as [D1 D2 D3 D4 D5 D6 D7 D8 D9]. constructor; auto; rewrite ?E; auto.
  destruct (es_std e); rewrite ?E; auto.
Qed.
Lemma plus_nonneg a b : 0 <= a -> 0 <= b -> 0 <= a + b. Proof. intros. lra. Qed.

Section Window.
Context (p : memspec) (e : espec) (w : power) (I : Q -> Q) (r : nat) (a b : list Command) (t1 t2 : N).
Hypothesis Wp : DeviceSpec.well_formed p.
Hypothesis We : EnergySpec.well_formed e.
Hypothesis SM : same_memory p e.
Hypothesis S : sane e.
Hypothesis B : background e w I.
Hypothesis D : sane_domain e w I.
Hypothesis T : timely p (a ++ b) t2.
Hypothesis L : legal p r (a ++ b).
Hypothesis F1 : (final_time 0 (map cmd_ts a) <= t1)%N.
Hypothesis F2 : (t1 <= t2)%N.
Hypothesis F3 : forall c, In c b -> (t1 <= cmd_ts c)%N.

Definition between (f : device -> Q) : Q := qsum (fun n => match device_at p r (a ++ b) (N.of_nat n) with Some d => f d | None => 0 end) (seq (N.to_nat t1) (N.to_nat (t2 - t1))).
Lemma over_split f : over_cycles p r (a ++ b) t2 f == over_cycles p r a t1 f + between f.
Proof using Wp We SM S B D T L F1 F2 F3.
  unfold over_cycles, between. replace (N.to_nat t2) with (N.to_nat t1 + N.to_nat (t2 - t1))%nat by lia. rewrite seq_app, qsum_app, Nat.add_0_l.
  apply Qplus_comp; [|reflexivity]. apply qsum_ext. intros n Hn. apply in_seq in Hn. unfold device_at. rewrite filter_app.
  replace (filter (fun c => to_rank r c && (cmd_ts c <=? N.of_nat n)%N) b) with (@nil Command); [rewrite app_nil_r; reflexivity|].
  symmetry. rewrite (filter_ext_in _ (fun _ => false)); [clear; induction b; auto|]. intros c Hc. specialize (F3 c Hc). destruct (N.leb_spec (cmd_ts c) (N.of_nat n)); [lia|apply andb_false_r].
Qed.
Lemma between_terms f lo hi : (forall n d, (n < t2)%N -> device_at p r (a ++ b) n = Some d -> length (dv_banks d) = ms_banks p -> lo <= f d /\ f d <= hi) ->
  lo * qn (t2 - t1) <= between f /\ between f <= hi * qn (t2 - t1).
Proof using Wp We SM S B D T L F1 F2 F3.
  intros H. assert (K : forall k, qsum (fun _ : nat => k) (seq (N.to_nat t1) (N.to_nat (t2 - t1))) == k * qn (t2 - t1)).
  { intros k. rewrite qsum_const, seq_length. rewrite <- qn_nat, N2Nat.id. ring. }
  assert (G : forall n, In n (seq (N.to_nat t1) (N.to_nat (t2 - t1))) -> lo <= match device_at p r (a ++ b) (N.of_nat n) with Some d => f d | None => 0 end <= hi).
  { intros n Hn. apply in_seq in Hn. destruct (device_at_ok p r (a ++ b) t2 (N.of_nat n) Wp T L ltac:(lia)) as (d & _ & E & _ & Z). rewrite E. apply (H (N.of_nat n)); auto. lia. }
  unfold between. split; rewrite <- K; apply qsum_le; intros n Hn; apply (G n Hn).
Qed.
Lemma standby_low m n d : always_draws e w m -> device_at p r (a ++ b) n = Some d -> m <= standby w I d.
Proof using Wp We SM S B D T L F1 F2 F3.
  intros (M1 & M2 & M3 & M4 & M5) E. unfold standby. destruct (dv_mode d) eqn:K; auto.
  - destruct (busy_banks d) eqn:Z; [exact M1|]. eapply Qle_trans; [exact M1|]. apply (above_standby e w I We S B D). unfold qnat, Qle. cbn. lia.
  - apply M5. rewrite (sm_std p e SM). eapply sleeps_at; eauto.
Qed.
Lemma standby_high M n d : never_exceeds e w I M -> device_at p r (a ++ b) n = Some d -> length (dv_banks d) = ms_banks p -> standby w I d <= M.
Proof using Wp We SM S B D T L F1 F2 F3.
  intros (M1 & M2 & M3 & M4 & M5 & M6) E Z. unfold standby. destruct (dv_mode d) eqn:K; auto.
  - destruct (busy_banks d) eqn:Y; [exact M1|]. eapply Qle_trans; [|exact M6]. apply (more_banks e w I We S B D). rewrite (sm_banks p e SM), <- Z, <- Y.
    unfold busy_banks. assert (length (filter busy (dv_banks d)) <= length (dv_banks d))%nat by (clear; induction (dv_banks d) as [|x l IH]; cbn; [lia|destruct (busy x); cbn; lia]).
    unfold qnat. rewrite <- Zle_Qle. lia.
  - apply M5. rewrite (sm_std p e SM). eapply sleeps_at; eauto.
Qed.

Lemma closing_coef : pw_v w * closing_charge e w == coef e w CPre.
Proof using. unfold closing_charge, cycles_time, coef, t_rp. ring. Qed.
Lemma command_least c : in_standard p (cmd_type c) && well_addressed p c = true ->
  (if is_act c then coef e w CPre else 0) <= pw_v w * command_charge e w I c.
Proof using Wp We SM S B D T L F1 F2 F3.
  intros H. pose proof (fun x => coef_nonneg e w I x We S B D) as C. assert (Z : 0 <= pw_v w * command_charge e w I c).
  { rewrite <- (cmd_energy_charge p e w I c Wp We SM B H). unfold cmd_energy. cbv zeta. pose proof (C CAct). pose proof (C CPre).
    repeat apply plus_nonneg; apply Qmult_le_0_compat; try apply C; try (unfold qnat, Qle; cbn; lia); lra. }
  unfold is_act. destruct (cmd_type c) eqn:K; try exact Z.
  unfold command_charge. rewrite K. cbv zeta. unfold cycles_time. pose proof (charge_act e w I We B) as CA. pose proof (C CAct) as CC. rewrite <- CA. lra.
Qed.

Definition now (l : list Command) (t : N) : Q := match device_at p r l t with Some d => qnat (open_rows d) | None => 0 end.
Lemma rows_window : now (a ++ b) t2 <= now a t1 + qnat (acts (filter (to_rank r) b)).
Proof using Wp We SM S B D T L F1 F2 F3.
  destruct T as (T1 & T2 & T3 & T4 & T5). unfold now, device_at.
  assert (E1 : filter (fun c => to_rank r c && (cmd_ts c <=? t1)%N) a = filter (to_rank r) a).
  { apply filter_ext_in. intros c Hc. apply nondecreasing_cat in T1 as [T1 _]. pose proof (proj2 (proj2 (nondecreasing_ge a 0 T1) c Hc)). destruct (N.leb_spec (cmd_ts c) t1); [apply andb_true_r|lia]. }
  assert (E2 : filter (fun c => to_rank r c && (cmd_ts c <=? t2)%N) (a ++ b) = filter (to_rank r) a ++ filter (to_rank r) b).
  { rewrite <- filter_app. apply filter_ext_in. intros c Hc. pose proof (proj2 (proj2 (nondecreasing_ge (a ++ b) 0 T1) c Hc)). destruct (N.leb_spec (cmd_ts c) t2); [apply andb_true_r|lia]. }
  rewrite E1, E2. unfold legal in L. rewrite filter_app in L. rewrite run_device_cat in *. destruct (run_device p (filter (to_rank r) a) (device_new p)) as [d|] eqn:R1; [|congruence].
  destruct (run_device p (filter (to_rank r) b) d) as [d'|] eqn:R2; [|congruence]. cbn [option_map]. rewrite <- qnat_add. unfold qnat. rewrite <- Zle_Qle. apply inj_le.
  apply (rows_run p _ d d' t1 R2); [|exact F2]. intros c Hc. apply filter_In in Hc as [Hc _]. now apply F3.
Qed.
Lemma acts_cost l : Forall (fun c => in_standard p (cmd_type c) && well_addressed p c = true) l -> qnat (acts l) * coef e w CPre <= pw_v w * qsum (command_charge e w I) l.
Proof using Wp We SM S B D T L F1 F2 F3.
  induction 1 as [|c l H _ IH]; [cbn; change (qnat 0) with 0; lra|]. rewrite qsum_cons. pose proof (command_least c H) as C. unfold acts in *. cbn [filter].
  destruct (is_act c); cbn [length]; [rewrite qnat_S|]; lra.
Qed.
Lemma charge_window lo hi : always_draws e w lo -> never_exceeds e w I hi ->
  pw_v w * charge p e w I r a t1 + pw_v w * (lo * cycles_time e (t2 - t1)) <= pw_v w * charge p e w I r (a ++ b) t2 /\
  pw_v w * charge p e w I r (a ++ b) t2 <= pw_v w * charge p e w I r a t1 + pw_v w * (hi * cycles_time e (t2 - t1)) + pw_v w * qsum (command_charge e w I) (filter (to_rank r) b) + pw_v w * (now a t1 * closing_charge e w).
Proof using Wp We SM S B D T L F1 F2 F3.
  intros HL HH. destruct (between_terms (standby w I) lo hi) as [X1 X2].
  { intros n d Hn E Z. split; [eapply standby_low; eauto|eapply standby_high; eauto]. }
  pose proof (sd_v e w I D) as V. pose proof (sn_tck e S) as TC. pose proof (coef_nonneg e w I CPre We S B D) as CP. rewrite <- closing_coef in CP.
  pose proof (over_split (standby w I)) as O.
  assert (A : Forall (fun c => in_standard p (cmd_type c) && well_addressed p c = true) (filter (to_rank r) b)).
  { pose proof (legal_checked p r (a ++ b) L) as Y. rewrite filter_app in Y. now apply Forall_app in Y as [_ Y]. }
  pose proof (acts_cost _ A) as AC. rewrite <- closing_coef in AC. pose proof rows_window as RW.
  unfold charge. fold (now a t1). fold (now (a ++ b) t2). rewrite O, filter_app, qsum_app. unfold cycles_time.
  set (X := between (standby w I)) in *. set (O1 := over_cycles p r a t1 (standby w I)). set (C1 := qsum (command_charge e w I) (filter (to_rank r) a)). set (C2 := qsum (command_charge e w I) (filter (to_rank r) b)) in *.
  set (n1 := now a t1) in *. set (n2 := now (a ++ b) t2) in *. set (k := closing_charge e w) in *. set (v := pw_v w) in *. set (tc := es_tCK e) in *. set (n := qn (t2 - t1)) in *. set (ac := qnat (acts (filter (to_rank r) b))) in *.
  assert (Y1 : 0 <= v * ((X - lo * n) * tc)) by (apply Qmult_le_0_compat; [exact V|apply Qmult_le_0_compat; lra]).
  assert (Y2 : 0 <= v * ((hi * n - X) * tc)) by (apply Qmult_le_0_compat; [exact V|apply Qmult_le_0_compat; lra]).
  assert (Y3 : 0 <= (n1 + ac - n2) * (v * k)) by (apply Qmult_le_0_compat; [lra|exact CP]).
  assert (N2 : 0 <= n2) by (unfold n2, now; destruct (device_at p r (a ++ b) t2); [unfold qnat, Qle; cbn; lia|lra]).
  assert (Y4 : 0 <= n2 * (v * k)) by (apply Qmult_le_0_compat; [exact N2|exact CP]).
  split; lra.
Qed.
End Window.

Lemma devices_nonneg e : 0 <= qnat (es_devices e). Proof. unfold qnat, Qle. cbn. lia. Qed.
Section Energies.
Context (p : memspec) (e : espec) (I : power -> Q -> Q) (a b : list Command) (t1 t2 : N).
Hypothesis Wp : DeviceSpec.well_formed p.
Hypothesis We : EnergySpec.well_formed e.
Hypothesis SM : same_memory p e.
Hypothesis S : sane e.
Hypothesis B : backgrounds e I.
Hypothesis T : timely p (a ++ b) t2.
Hypothesis L : legal_history p (a ++ b).
Hypothesis F1 : (final_time 0 (map cmd_ts a) <= t1)%N.
Hypothesis F2 : (t1 <= t2)%N.
Hypothesis F3 : forall c, In c b -> (t1 <= cmd_ts c)%N.

Lemma energies : exists x1 x2, core_energy p e a t1 x1 /\ core_energy p e (a ++ b) t2 x2 /\ x1 == energy_of p e I a t1 /\ x2 == energy_of p e I (a ++ b) t2.
Proof using Wp We SM S B T L F1 F2 F3.
  pose proof (timely_prefix p a b t2 T t1 F1 F2) as TA. pose proof (legal_history_cat p a b L) as LA.
  destruct (legal_history_accepted p a t1 Wp TA LA) as [s1 S1]. destruct (legal_history_accepted p (a ++ b) t2 Wp T L) as [s2 S2].
  destruct (core_energy_charge p e I a t1 s1 Wp We SM B TA LA S1) as (en1 & E1 & C1). destruct (core_energy_charge p e I (a ++ b) t2 s2 Wp We SM B T L S2) as (en2 & E2 & C2).
  exists (en_total en1), (en_total en2). split; [exists s1, en1; auto|]. split; [exists s2, en2; auto|]. split; assumption.
Qed.
Theorem window_bounds lo hi : (forall w, In w (es_domains e) -> always_draws e w (lo w) /\ never_exceeds e w (I w) (hi w)) ->
  exists x1 x2, core_energy p e a t1 x1 /\ core_energy p e (a ++ b) t2 x2 /\
    x1 + constant_draw e lo (t2 - t1) <= x2 /\
    x2 <= x1 + constant_draw e hi (t2 - t1) + commands_draw e I b + rows_draw p e a t1.
Proof using Wp We SM S B T L F1 F2 F3.
  intros H. destruct energies as (x1 & x2 & X1 & X2 & E1 & E2). exists x1, x2. split; [exact X1|]. split; [exact X2|]. rewrite E1, E2.
  pose proof (devices_nonneg e) as DN. unfold constant_draw, commands_draw, rows_draw, energy_of. rewrite (sm_ranks p e SM).
  assert (P : forall w r, In w (es_domains e) -> In r (seq 0 (ms_ranks p)) ->
    pw_v w * charge p e w (I w) r a t1 + pw_v w * (lo w * cycles_time e (t2 - t1)) <= pw_v w * charge p e w (I w) r (a ++ b) t2 /\
    pw_v w * charge p e w (I w) r (a ++ b) t2 <= pw_v w * charge p e w (I w) r a t1 + pw_v w * (hi w * cycles_time e (t2 - t1)) + pw_v w * qsum (command_charge e w (I w)) (filter (to_rank r) b) +
      pw_v w * (match device_at p r a t1 with Some d => qnat (open_rows d) | None => 0 end * closing_charge e w)).
  { intros w r Hw Hr. apply in_seq in Hr. destruct (H w Hw) as [H1 H2]. destruct L as [_ L2]. apply (charge_window p e w (I w) r a b t1 t2); auto; [apply sane_same; auto|apply L2; lia]. }
  split; rewrite <- ?qsum_plus; apply qsum_le; intros w Hw; rewrite <- ?qsum_plus; apply qsum_le; intros r Hr; destruct (P w r Hw Hr) as [P1 P2].
  - assert (0 <= qnat (es_devices e) * (pw_v w * charge p e w (I w) r (a ++ b) t2 - (pw_v w * charge p e w (I w) r a t1 + pw_v w * (lo w * cycles_time e (t2 - t1))))) by (apply Qmult_le_0_compat; lra). lra.
  - set (Z := match device_at p r a t1 with Some d => qnat (open_rows d) | None => 0 end) in *.
    match type of P2 with ?l <= ?rr => assert (0 <= qnat (es_devices e) * (rr - l)) by (apply Qmult_le_0_compat; lra) end. lra.
Qed.
End Energies.
