(* From the constructor to the statistics. *)
From Coq Require Import NArith QArith List Bool Arith Lia.
From Verif Require Import Base Command CoreModel Bits BusModel WaveSpec BitFacts StorageProofs BusProofs BusMore ClockProofs ToggleModel ToggleProofs DataProofs
  PinModel DbiModel DbiPinModel PatternModel PatternTables PatternSpec PatternProofs FormatModel FormatProofs StatsModel InterfaceModel InterfaceSpec InterfaceCa InterfaceRun.
Import ListNotations.
Local Open Scope N_scope.
Ltac Zify.zify_post_hook ::= idtac.


(* ---- the constructor ---- *)
Record built (p : ifspec) (sim : option toggle_def) (i : iface) : Prop := {
  bt_spec : if_spec i = p;
  bt_cmd : bus_new (ca_pins (fi_std p)) (ca_pins (fi_std p)) (ca_beats (fi_std p)) (spec_of (ca_rests_high (fi_std p))) true = Value (if_cmd i);
  bt_data : exists max, preset_capacity (N.to_nat (data_width p)) = Value max /\ data_new max (data_config_of p sim) (data_mode sim) = Value (if_data i);
  bt_rdqs : if_rdqs i = clock_new (match fi_std p with DDR5 => fi_dqs p | _ => fi_rate p end) true;
  bt_wdqs : if_wdqs i = clock_new (match fi_std p with DDR5 => fi_dqs p | _ => fi_rate p end) true;
  bt_wck : two_clocks (fi_std p) = true -> if_wck i = clock_new (fi_rate p / fi_wck p) (negb (fi_wck_on p));
  bt_clock : if_clock i = clock_new 2 false;
  bt_dbi : new_dbi p = Value (if_dbi i);
  bt_ranks : if_ranks i = repeat rank_if0 (match fi_std p with DDR4 => fi_ranks p | _ => 0%nat end);
  bt_pat : if_pat i = new_patterns p;
  bt_last : if_last i = 0;
  bt_buf : if_buf i = []; bt_meta : if_meta i = (0, 0);
  bt_on : if_enabled i = true
}.
Lemma new_built p sim i : iface_new p sim = Value i -> built p sim i.
Proof.
  unfold iface_new. cbv zeta. intros E. apply bind_inv in E as (cmd & E1 & E). apply bind_inv in E as (max & E2 & E). apply bind_inv in E as (data & E3 & E).
  apply bind_inv in E as (wck & E4 & E). apply bind_inv in E as (d & E5 & E). apply value_inj in E. subst i.
  constructor; try reflexivity.
  - cbn [if_cmd]. rewrite <- E1. destruct (fi_std p); reflexivity.
  - exists max. split; assumption.
  - cbn [if_wck]. intros T. destruct (fi_std p); try discriminate; destruct (fi_wck p =? 0); congruence.
  - exact E5.
Qed.

Lemma data_new_mode max c m d : data_new max c m = Value d -> d_mode d = m.
Proof.
  unfold data_new. intros E. repeat (apply bind_inv in E as (? & _ & E)). now injection E as <-.
Qed.

Lemma start_inv p sim i : iface_new p sim = Value i -> run_inv p (no_toggle sim) i [] i.
Proof.
  intros E. apply new_built in E. destruct (pins_ok (fi_std p)) as (P1 & P2 & P3).
  constructor.
  - apply (bt_spec _ _ _ E).
  - destruct (bt_data _ _ _ E) as (max & _ & D). unfold is_busmode. rewrite (data_new_mode _ _ _ _ D). destruct sim; reflexivity.
  - rewrite (bt_pat _ _ _ E). apply new_pat_inv.
  - destruct (bus_new_inv _ _ (ca_beats (fi_std p)) (ca_rests_high (fi_std p)) P1 P2) as (b & B1 & B2 & B3 & B4). rewrite (bt_cmd _ _ _ E) in B1.
    apply value_inj in B1. subst b. exists []. split; [exact B2|]. split; [reflexivity|]. split; [exact I|]. rewrite B3, B4. reflexivity.
  - reflexivity.
  - destruct (two_clocks (fi_std p)); reflexivity.
  - destruct (fi_wck_on p); reflexivity.
  - reflexivity.
  - reflexivity.
Qed.

Lemma run_inv_top p sim i0 xs i : sizes_ok p -> (fi_std p = LPDDR6 -> fi_groups p = 4) -> iface_new p sim = Value i0 ->
  Forall (command_ok p (no_toggle sim)) (commands xs) -> calls_run xs i0 = Value i -> run_inv p (no_toggle sim) i0 xs i.
Proof. intros Sz G E F R. exact (run_inv_run p (no_toggle sim) i0 Sz G xs [] i0 i F (start_inv p sim i0 E) R). Qed.

(* ---- the command bus ---- *)
Lemma last_start_le rate n ls : Forall (fun l => lo_time l * rate <= n) ls -> last_start rate ls <= n.
Proof.
  intros F. unfold last_start. assert (forall e, e <= n -> fold_left (fun _ l => lo_time l * rate) ls e <= n) as H; [|apply H; lia].
  induction F as [|l ls H1 _ IH]; intros e He; [exact He|]. cbn [fold_left]. now apply IH.
Qed.
Lemma drives_times width rate ls n : Forall (fun d => fst d <= n) (map (drive_of width rate) ls) -> Forall (fun l => lo_time l * rate <= n) ls.
Proof. intros F. exact (proj1 (Forall_map (drive_of width rate) (fun d => fst d <= n) ls) F). Qed.
Lemma ca_drives_times p bus t cs : Forall (fun c => cmd_ts c <= t) cs -> Forall (fun d => fst d <= t * ca_beats (fi_std p)) (ca_drives p bus cs).
Proof.
  induction 1 as [|c cs H _ IH]; [constructor|]. cbn [ca_drives flat_map]. apply Forall_app. split; [|exact IH].
  destruct (silent (fi_std p) (cmd_type c)); constructor; [|constructor]. cbn [fst]. now apply N.mul_le_mono_r.
Qed.
Lemma timed_apart width rate ls : forall e, well_timed width rate e ls -> apart e (map (drive_of width rate) ls).
Proof.
  induction ls as [|l ls IH]; intros e H; [exact I|]. cbn [map apart]. destruct H as [H1 H2]. split; [exact H1|].
  cbn [drive_of fst snd]. rewrite played_length. now apply IH.
Qed.

Theorem command_bus_counts p sim i0 xs i t : sizes_ok p -> (fi_std p = LPDDR6 -> fi_groups p = 4) -> iface_new p sim = Value i0 ->
  Forall (fun c => cmd_ts c <= t /\ cmd_ts c + burst_cycles p (no_toggle sim) c < two64) (commands xs) -> t * ca_beats (fi_std p) + 64 < two64 ->
  calls_run xs i0 = Value i ->
  apart 0 (ca_drives p (no_toggle sim) (commands xs)) /\
  bus_get_stats (if_cmd i) t = Value (wrap_stats (wave_stats (ca_pins (fi_std p)) (idle_word (ca_pins (fi_std p)) (ca_rests_high (fi_std p)))
    (ca_drives p (no_toggle sim) (commands xs)) (t * ca_beats (fi_std p)))).
Proof.
  intros Sz G E F T R. assert (Forall (command_ok p (no_toggle sim)) (commands xs)) as F'.
  { eapply Forall_impl; [|exact F]. intros c [H1 H2]. split; [|exact H2]. eapply N.le_lt_trans; [|exact T]. apply N.add_le_mono_r. now apply N.mul_le_mono_r. }
  destruct (run_inv_top p sim i0 xs i Sz G E F' R) as [_ _ _ (ls & B & D & W & _) _ _ _ _ _]. destruct (pins_ok (fi_std p)) as (P1 & P2 & P3).
  split; [rewrite <- D; now apply timed_apart|].
  rewrite <- D. apply (get_stats_ok _ _ _ _ P1 P2 P3 (word_of_bound _ _) ls).
  - exact B.
  - apply last_start_le. eapply drives_times. rewrite D. apply ca_drives_times. eapply Forall_impl; [|exact F]. intros c H. exact (proj1 H).
  - lia.
Qed.

(* ---- strobes and clocks ---- *)
Lemma strobe_order p bus want cs : forall from until, bursts_in_order p bus want from until cs -> in_order from until (strobe p bus want cs).
Proof.
  induction cs as [|c cs IH]; intros from until H; [exact H|]. cbn [bursts_in_order] in H. unfold strobe. cbn [flat_map]. fold (strobe p bus want cs).
  destruct (transfers (cmd_type c)) as [read|]; [|now apply IH]. destruct (want read); [|now apply IH]. destruct H as [H1 H2]. cbn [app in_order op_time].
  split; [exact H1|]. split; [apply N.le_add_r|]. now apply IH.
Qed.
Lemma running_cons on o r i : running on (o :: r) i = running (if op_time o <=? i then starts o else on) r i.
Proof. reflexivity. Qed.
Lemma span_pulse a b r from t : from <= a -> a <= b -> in_order b t r ->
  span (running false (Start a :: Stop b :: r)) from t = (b - a) + span (running false r) b t.
Proof.
  intros H1 H2 O. pose proof (in_order_le r b t O) as H3.
  rewrite (span_split _ from a t) by lia. rewrite (span_split _ a b t) by lia.
  rewrite (span_ext _ (fun _ => false) from a), (span_ext _ (fun _ => true) a b), (span_ext _ (running false r) b t).
  - rewrite !span_const. lia.
  - intros i I1 I2. rewrite !running_cons. cbn [op_time starts]. rewrite (proj2 (N.leb_le b i)) by lia. destruct (a <=? i); reflexivity.
  - intros i I1 I2. rewrite !running_cons. cbn [op_time starts]. rewrite (proj2 (N.leb_le a i)), (proj2 (N.leb_gt b i)) by lia. now apply (running_before _ _ _ b t).
  - intros i I1 I2. rewrite !running_cons. cbn [op_time starts]. rewrite (proj2 (N.leb_gt a i)), (proj2 (N.leb_gt b i)) by lia. apply (running_before _ _ _ b t); [exact O|lia].
Qed.
Lemma strobe_span p bus want cs : forall from until, bursts_in_order p bus want from until cs ->
  span (running false (strobe p bus want cs)) from until = total_cycles p bus want cs.
Proof.
  unfold total_cycles. induction cs as [|c cs IH]; intros from until H.
  - apply (span_const false).
  - cbn [bursts_in_order] in H. unfold strobe. cbn [flat_map filter]. fold (strobe p bus want cs).
    destruct (transfers (cmd_type c)) as [read|]; [|now apply IH]. destruct (want read); [|now apply IH]. destruct H as [H1 H2]. cbn [app map fold_right].
    rewrite span_pulse; [|exact H1|apply N.le_add_r|now apply strobe_order]. rewrite (IH _ _ H2). f_equal.
    rewrite N.add_comm. apply N.add_sub.
Qed.
Lemma running_span on ops t : running_cycles on ops t = span (running on ops) 0 t.
Proof. unfold running_cycles, span. rewrite N.sub_0_r. apply lines_ext. intros j _. now rewrite N.add_0_l. Qed.

Lemma strobe_stats p bus want cs half k t : bursts_in_order p bus want 0 t cs -> t * (2 * half) < two64 -> t < two64 ->
  clock_run (strobe p bus want cs) (clock_new (2 * half) true) = Value k ->
  clock_get k t = wrap_stats (periods half (total_cycles p bus want cs)).
Proof.
  intros O H1 H2 R. rewrite (clock_counts half true _ t k (strobe_order _ _ _ _ _ _ O) H1 H2 R). cbn [negb]. now rewrite running_span, (strobe_span _ _ _ _ _ _ O).
Qed.

Lemma no_switching xs : (forall u, In (Enable u) xs \/ In (Disable u) xs -> False) -> switching true xs = [].
Proof.
  induction xs as [|x xs IH]; intros H; [reflexivity|]. cbn [switching].
  destruct x; try (exfalso; eapply H; cbn; eauto; fail); apply IH; intros u [I|I]; apply (H u); cbn; auto.
Qed.

(* What the window statistics say about strobes and clocks. *)
Lemma window_fields i t st st' : if_window i t st = Value st' ->
  bus_get_stats (if_cmd i) t = Value (ss_commandBus st') /\
  (exists d, data_get (if_data i) t = Value d /\
     ss_readBus st' = stats_add (ss_readBus st) (ds_read d) /\ ss_writeBus st' = stats_add (ss_writeBus st) (ds_write d) /\
     ss_togRead st' = stats_add (ss_togRead st) (ds_tread d) /\ ss_togWrite st' = stats_add (ss_togWrite st) (ds_twrite d)) /\
  ss_clock st' = stats_mul 2 (clock_get (if_clock i) t) /\
  ss_wClock st' = (if two_clocks (fi_std (if_spec i)) then stats_mul 2 (clock_get (if_wck i) t) else ss_wClock st) /\
  ss_readDQS st' = stats_mul (strobe_lines (if_spec i)) (clock_get (if_rdqs i) t) /\
  ss_writeDQS st' = (if two_clocks (fi_std (if_spec i)) then ss_writeDQS st else stats_mul (strobe_lines (if_spec i)) (clock_get (if_wdqs i) t)) /\
  ss_bank st' = ss_bank st.
Proof.
  unfold if_window. cbv zeta. intros E. apply bind_inv in E as (ranks & E1 & E). apply bind_inv in E as (cmd & E2 & E). apply bind_inv in E as (d & E3 & E).
  apply bind_inv in E as (rd & E4 & E). apply bind_inv in E as (wd & E5 & E). apply value_inj in E. subst st'.
  cbn [ss_commandBus ss_readBus ss_writeBus ss_togRead ss_togWrite ss_clock ss_wClock ss_readDQS ss_writeDQS ss_bank].
  assert (forall k, (match fi_std (if_spec i) with
               | DDR5 | LPDDR4 => if fi_bits (if_spec i) =? 16 then stats_mul 2 (stats_mul 2 (clock_get k t)) else stats_mul 2 (clock_get k t)
               | _ => stats_mul (dqs_lines (if_spec i)) (clock_get k t)
               end) = stats_mul (strobe_lines (if_spec i)) (clock_get k t)) as Q.
  { intros k. assert (forall a, stats_mul 2 (stats_mul 2 a) = stats_mul 4 a) as M.
    { intros a. apply stats_eq; cbn [stats_mul ones zeroes changes o2z z2o]; unfold u64_mul; rewrite N.mul_mod_idemp_l by exact two64_pos; f_equal; lia. }
    unfold strobe_lines, dqs_lines. destruct (fi_std (if_spec i)), (fi_bits (if_spec i) =? 16); rewrite ?M; reflexivity. }
  split; [exact E2|]. split; [exists d; auto|]. split; [reflexivity|]. split; [reflexivity|]. split; [apply Q|].
  split; [unfold two_clocks; destruct (fi_std (if_spec i)); try reflexivity; apply Q|reflexivity].
Qed.


Section Strobes.
Context (p : ifspec) (sim : option toggle_def) (i0 : iface) (xs : list call) (i : iface) (t : N) (st st' : sim_stats)
  (Sz : sizes_ok p) (G : fi_std p = LPDDR6 -> fi_groups p = 4) (New : iface_new p sim = Value i0)
  (Ok : Forall (command_ok p (no_toggle sim)) (commands xs)) (Run : calls_run xs i0 = Value i) (Win : if_window i t st = Value st').

Theorem strobes_count half : dqs_rate p = 2 * half -> t * (2 * half) < two64 -> t < two64 ->
  (bursts_in_order p (no_toggle sim) wants_read 0 t (commands xs) ->
   ss_readDQS st' = wrap_stats (scale (strobe_lines p) (periods half (total_cycles p (no_toggle sim) wants_read (commands xs))))) /\
  (two_clocks (fi_std p) = false -> bursts_in_order p (no_toggle sim) negb 0 t (commands xs) ->
   ss_writeDQS st' = wrap_stats (scale (strobe_lines p) (periods half (total_cycles p (no_toggle sim) negb (commands xs))))).
Proof using Sz G New Ok Run Win.
  intros Hr H1 H2. pose proof (run_inv_top p sim i0 xs i Sz G New Ok Run) as V. pose proof (new_built p sim i0 New) as B.
  destruct (window_fields i t st st' Win) as (_ & _ & _ & _ & W1 & W2 & _). rewrite (rn_spec _ _ _ _ _ V) in W1, W2. fold (dqs_rate p) in *.
  pose proof (bt_rdqs _ _ _ B) as Br. pose proof (bt_wdqs _ _ _ B) as Bw. fold (dqs_rate p) in Br, Bw. rewrite Hr in Br, Bw. split.
  - intros O. pose proof (rn_rdqs _ _ _ _ _ V) as R. rewrite Br in R. rewrite W1, (strobe_stats p _ wants_read _ half _ t O H1 H2 R). apply stats_mul_wrap.
  - intros T O. rewrite T in W2. pose proof (rn_wdqs _ _ _ _ _ V) as R. rewrite T, Bw in R. rewrite W2, (strobe_stats p _ negb _ half _ t O H1 H2 R). apply stats_mul_wrap.
Qed.

Theorem wck_counts half : two_clocks (fi_std p) = true -> fi_rate p / fi_wck p = 2 * half -> t * (2 * half) < two64 -> t < two64 ->
  (fi_wck_on p = true -> in_order 0 t (switching true xs) ->
   ss_wClock st' = wrap_stats (scale 2 (periods half (running_cycles true (switching true xs) t)))) /\
  (fi_wck_on p = false -> bursts_in_order p (no_toggle sim) wants_any 0 t (commands xs) ->
   ss_wClock st' = wrap_stats (scale 2 (periods half (total_cycles p (no_toggle sim) wants_any (commands xs))))).
Proof using Sz G New Ok Run Win.
  intros T Hr H1 H2. pose proof (run_inv_top p sim i0 xs i Sz G New Ok Run) as V. pose proof (new_built p sim i0 New) as B.
  destruct (window_fields i t st st' Win) as (_ & _ & _ & W & _). rewrite (rn_spec _ _ _ _ _ V), T in W.
  pose proof (rn_wck _ _ _ _ _ V T) as R. rewrite (bt_wck _ _ _ B T), Hr, (bt_on _ _ _ B) in R. split; intros On O; rewrite On in R; cbn [negb] in R.
  - rewrite W. rewrite (clock_counts half false _ t _ O H1 H2 R). apply stats_mul_wrap.
  - rewrite W, (strobe_stats p _ wants_any _ half _ t O H1 H2 R). apply stats_mul_wrap.
Qed.

Theorem clock_counts_top : in_order 0 t (switching true xs) -> t * 2 < two64 ->
  ss_clock st' = wrap_stats (scale 2 (periods 1 (running_cycles true (switching true xs) t))).
Proof using Sz G New Ok Run Win.
  intros O H. pose proof (run_inv_top p sim i0 xs i Sz G New Ok Run) as V. pose proof (new_built p sim i0 New) as B.
  destruct (window_fields i t st st' Win) as (_ & _ & W & _). pose proof (rn_clock _ _ _ _ _ V) as R. rewrite (bt_clock _ _ _ B), (bt_on _ _ _ B) in R.
  rewrite W. change 2 with (2 * 1) in R at 1. rewrite (clock_counts 1 false _ t _ O) by (assumption || lia). apply stats_mul_wrap.
Qed.
End Strobes.

Lemma always_on t : running_cycles true [] t = t.
Proof. rewrite running_span. unfold running. cbn [fold_left]. rewrite (span_const true). lia. Qed.
