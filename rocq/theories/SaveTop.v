(* What power-down saves: legality, times, counters and energy of the trace without
   power-down. *)
From Coq Require Import ZArith QArith Lqa NArith List Bool Lia ZifyBool ZifyNat ZifyN Arith.
From Verif Require Import Base Command CoreModel ListFacts HistorySpec CoreHistory DeviceSpec RefineBase RefineMain DeviceFacts DeviceSleep DeviceTop.
From Verif Require Import StatsModel EnergyModel EnergySpec EnergyProofs DramModel ChargeSpec ChargeBase ChargeProofs ChargeTop ComposeProofs ComposeMain ComposeTop LocalProofs SaveSpec SaveProofs.
Import ListNotations.
Local Open Scope N_scope.

Lemma filter_swap {A} (f g : A -> bool) l : filter f (filter g l) = filter g (filter f l).
Proof. rewrite !filter_filter. apply filter_ext. intros x. apply andb_comm. Qed.

Section Rank.
Variable p : memspec.
Variable r : nat.
Variable cs : list Command.
Variable keep : bool.
Hypothesis ND : nondecreasing 0 (map cmd_ts cs).
Hypothesis U : if keep then forall c, In c cs -> to_rank r c = true -> cmd_type c <> PDEA else unhurried p r cs.

Lemma run_awake a : forall z, cs = a ++ z -> forall d, run_device p (filter (to_rank r) a) (device_new p) = Some d ->
  exists d', run_device p (filter (to_rank r) (awake a)) (device_new p) = Some d' /\ forall n, (forall c, In c a -> cmd_ts c <= n) -> wdev keep (settle n d) (settle n d').
Proof.
  induction a as [|c a IH] using rev_ind; intros z E d H.
  - cbn in H. injection H as <-. exists (device_new p). split; [reflexivity|]. intros n _. apply w_settle, w_new.
  - rewrite <- app_assoc in E. cbn [app] in E. rewrite filter_app, run_device_cat in H. destruct (run_device p (filter (to_rank r) a) (device_new p)) as [d0|] eqn:R0; [|discriminate].
    destruct (IH (c :: z) E d0 eq_refl) as (d0' & R0' & S0). unfold awake in *. rewrite filter_app, filter_app, run_device_cat, R0'. cbn [filter] in *.
    assert (LE : forall x, In x a -> cmd_ts x <= cmd_ts c).
    { intros x Hx. assert (ND' := ND). rewrite E in ND'. exact (a_before a z c ND' x Hx). }
    specialize (S0 (cmd_ts c) LE) as SC.
    destruct (to_rank r c) eqn:TR.
    + cbn [run_device] in H. destruct (command p c (settle (cmd_ts c) d0)) as [e|] eqn:C; [|discriminate]. injection H as <-.
      destruct (power_down c) eqn:PD; cbn [negb filter].
      * cbn [run_device]. exists d0'. split; [reflexivity|]. intros n Hn. assert (cmd_ts c <= n) as Hc by (apply Hn, in_or_app; right; now left).
        rewrite <- (settle_settle (cmd_ts c) n d0' Hc). apply w_settle. eapply w_doze; eauto. intros ->. apply U; [rewrite E; apply in_or_app; right; now left|exact TR].
      * rewrite TR. cbn [run_device]. assert (CA : calm p keep c (settle (cmd_ts c) d0)).
        { intros -> A b s N1 N2. eapply (U a c z E TR A); eauto. unfold device_at. rewrite (filter_ext_in _ (to_rank r)).
          - rewrite R0. reflexivity.
          - intros x Hx. specialize (LE x Hx). destruct (to_rank r x); cbn; lia. }
        destruct (w_command p keep c _ _ e PD CA SC C) as (e' & C' & S'). rewrite C'. exists e'. split; [reflexivity|]. intros n Hn. now apply w_settle.
    + cbn [run_device] in H. injection H as <-. destruct (negb (power_down c)); cbn [filter]; rewrite ?TR; cbn [run_device]; exists d0'; (split; [reflexivity|]); intros n Hn; apply S0; intros; apply Hn, in_or_app; now left.
Qed.
Lemma before n : exists z, cs = filter (fun c => cmd_ts c <=? n) cs ++ z.
Proof using ND. exact (sorted_split n cs 0 ND). Qed.
Lemma device_awake n d : device_at p r cs n = Some d -> exists d', device_at p r (awake cs) n = Some d' /\ wdev keep d d'.
Proof using ND U.
  unfold device_at. rewrite !filter_le, (filter_swap _ (to_rank r)). intros H. destruct (run_device p (filter (to_rank r) (filter _ cs)) (device_new p)) as [d0|] eqn:R; [|discriminate]. injection H as <-.
  destruct (before n) as [z Z]. destruct (run_awake _ z Z d0 R) as (d' & R' & S). rewrite (filter_swap _ (to_rank r)). unfold awake in *. rewrite (filter_swap (fun c => cmd_ts c <=? n)), R'.
  exists (settle n d'). split; [reflexivity|]. apply S. intros c Hc. apply filter_In in Hc. lia.
Qed.
Lemma awake_legal : legal p r cs -> legal p r (awake cs).
Proof using ND U.
  unfold legal. intros L. destruct (run_device p (filter (to_rank r) cs) (device_new p)) as [d|] eqn:R; [|now elim L].
  destruct (run_awake cs [] (eq_sym (app_nil_r cs)) d R) as (d' & -> & _). discriminate.
Qed.
End Rank.

Lemma awake_timely p cs t : timely p cs t -> timely p (awake cs) t.
Proof.
  intros (H1 & H2 & H3 & H4 & H5). unfold awake. split; [now apply filter_nondecreasing|]. split; [|split; [|split; [exact H4|]]].
  - unfold no_overflow in *. apply Forall_map. apply Forall_map in H2. apply Forall_forall. intros c Hc. apply filter_In in Hc as [Hc _]. rewrite Forall_forall in H2. auto.
  - assert (F : forall l m, (forall c : Command, In c l -> cmd_ts c <= t) -> m <= t -> final_time m (map cmd_ts l) <= t).
    { induction l as [|c l IH]; intros m G M; [exact M|]. cbn. apply IH; [intros; apply G; now right|apply G; now left]. }
    apply F; [|lia]. intros c Hc. apply filter_In in Hc as [Hc _]. pose proof (proj2 (nondecreasing_ge cs 0 H1) c Hc). lia.
  - assert (G : forall l, (length (filter (fun c => negb (power_down c)) l) <= length l)%nat) by (induction l as [|c l IH]; cbn; [lia|]; destruct (negb (power_down c)); cbn; lia).
    specialize (G cs). lia.
Qed.

Section Trace.
Variable p : memspec.
Variable cs : list Command.
Variable t : N.
Hypothesis W : DeviceSpec.well_formed p.
Hypothesis T : timely p cs t.
Hypothesis L : legal_history p cs.
Hypothesis U : undisturbed p cs.

Lemma nd : nondecreasing 0 (map cmd_ts cs). Proof using T. apply T. Qed.
(* One cycle in both traces. *)
Record pair (d d' : device) : Prop := {
  pr_busy : Forall2 (fun b b' => sb_state b' = sb_state b) (dv_banks d) (dv_banks d');
  pr_mode : dv_mode d' = match dv_mode d with ActPd | PrePd => Up | m => m end;
  pr_act : dv_mode d = ActPd -> existsb is_open (dv_banks d) = true /\ forallb is_stable (dv_banks d) = true;
  pr_closed : dv_mode d <> Up -> dv_mode d <> ActPd -> forallb is_closed (dv_banks d) = true
}.
Lemma wdev_pair k ps d d' : dev_ok ps d -> wdev k d d' -> pair d d'.
Proof using.
  intros O [B M P K R Z]. unfold dev_ok in O. unfold dozing in M. constructor.
  - clear - B. induction B as [|b b' l l' S]; constructor; auto. apply S.
  - destruct (dv_mode d), (dv_pend d) as [[x m]|]; auto; try destruct m; auto; contradiction.
  - intros E. rewrite E in O. assert (OO : existsb is_open (dv_banks d) = true /\ forallb (fun b => is_open b || (is_closed b && closed_before ps b)) (dv_banks d) = true) by (destruct (dv_pend d) as [[x []]|]; auto; contradiction).
    destruct OO as [O1 O2]. split; [exact O1|]. rewrite forallb_forall in O2 |- *. intros b Hb. specialize (O2 b Hb). unfold is_stable. destruct (is_open b); [apply orb_true_r|]. cbn in O2. apply andb_true_iff in O2 as [-> _]. reflexivity.
  - intros E1 E2. destruct (dv_mode d); try congruence; destruct (dv_pend d) as [[x []]|]; auto; contradiction.
Qed.
Lemma both n r : (r < ms_ranks p)%nat -> n <= t -> exists d d', device_at p r cs n = Some d /\ device_at p r (awake cs) n = Some d' /\ pair d d'.
Proof using W T L U.
  intros Hr Hn. destruct (device_at_ok p r cs t n W T (proj2 L r Hr) Hn) as (d & ps & D & O & _).
  destruct (U r Hr) as [H|H]; [destruct (device_awake p r cs true nd H n d D) as (d' & D' & S)|destruct (device_awake p r cs false nd H n d D) as (d' & D' & S)];
    exists d, d'; (split; [exact D|split; [exact D'|eapply wdev_pair; eauto]]).
Qed.
Theorem legal_awake : timely p (awake cs) t /\ legal_history p (awake cs).
Proof using T L U.
  split; [now apply awake_timely|]. destruct L as [L1 L2]. split.
  - apply Forall_forall. intros c Hc. apply filter_In in Hc as [Hc _]. rewrite Forall_forall in L1. auto.
  - intros r Hr. specialize (L2 r Hr). destruct (U r Hr) as [H|H]; [now apply (awake_legal p r cs true nd H)|now apply (awake_legal p r cs false nd H)].
Qed.
Lemma pair_busy d d' : pair d d' -> existsb busy (dv_banks d') = existsb busy (dv_banks d).
Proof using. intros [B _ _ _]. induction B as [|b b' l l' S B IH]; cbn; [reflexivity|]. rewrite IH. unfold busy. now rewrite S. Qed.
Lemma count_pair r (P P' : device -> bool) : (r < ms_ranks p)%nat -> (forall d d', pair d d' -> P' d' = P d) -> cycles_where p r (awake cs) t P' = cycles_where p r cs t P.
Proof using W T L U.
  intros Hr H. unfold cycles_where. apply count_below_ext. intros m Hm. destruct (both (N.of_nat m) r Hr ltac:(lia)) as (d & d' & -> & -> & S). now apply H.
Qed.
Lemma count_two r (P Q P' : device -> bool) : (r < ms_ranks p)%nat -> (forall d d', pair d d' -> b2N (P d) + b2N (Q d) = b2N (P' d')) ->
  cycles_where p r (awake cs) t P' = cycles_where p r cs t P + cycles_where p r cs t Q.
Proof using W T L U.
  intros Hr H. unfold cycles_where. symmetry. apply count_add. intros m Hm. destruct (both (N.of_nat m) r Hr ltac:(lia)) as (d & d' & -> & -> & S). now apply H.
Qed.
Lemma open_busy l : existsb is_open l = true -> existsb busy l = true.
Proof using. intros H. apply existsb_exists in H as (b & Hb & Ho). apply existsb_exists. exists b. split; [exact Hb|]. unfold is_open in Ho. unfold busy. destruct (sb_state b); discriminate || reflexivity. Qed.
Definition without (v : cycles) : cycles := mkCycles (cy_act v + cy_pda v) (cy_pre v + cy_pdp v) 0 0 (cy_sref v) (cy_dsm v).
Lemma count_never r l n : cycles_where p r l n (fun _ => false) = 0.
Proof using. unfold cycles_where. induction (N.to_nat n) as [|m IH]; [reflexivity|]. cbn [count_below]. rewrite IH. destruct (device_at p r l (N.of_nat m)); reflexivity. Qed.
Lemma count_zero r (P' : device -> bool) : (r < ms_ranks p)%nat -> (forall d d', pair d d' -> P' d' = false) -> cycles_where p r (awake cs) t P' = 0.
Proof using W T L U. intros Hr H. rewrite (count_pair r (fun _ => false) P' Hr H). apply count_never. Qed.

Lemma spec_rank_awake r : (r < ms_ranks p)%nat -> spec_rank p r (awake cs) t = without (spec_rank p r cs t).
Proof using W T L U.
  intros Hr. unfold spec_rank, without. cbn [cy_act cy_pre cy_pda cy_pdp cy_sref cy_dsm]. f_equal.
  - apply count_two; [exact Hr|]. intros d d' S. unfold rank_acts, mode_is. rewrite (pair_busy _ _ S), (pr_mode _ _ S).
    destruct (dv_mode d) eqn:E; cbn [smode_beq negb]; rewrite ?andb_true_r, ?andb_false_r; cbn [b2N]; try lia.
    destruct (pr_act _ _ S E) as [O _]. rewrite (open_busy _ O). reflexivity.
  - apply count_two; [exact Hr|]. intros d d' S. unfold rank_idles, mode_is. rewrite (pair_busy _ _ S), (pr_mode _ _ S).
    destruct (dv_mode d) eqn:E; cbn [smode_beq negb]; rewrite ?andb_true_r, ?andb_false_r; cbn [b2N]; try lia.
    + destruct (pr_act _ _ S E) as [O _]. rewrite (open_busy _ O). reflexivity.
    + rewrite (closed_none _ (pr_closed _ _ S ltac:(congruence) ltac:(congruence))). reflexivity.
  - apply count_zero; [exact Hr|]. intros d d' S. unfold mode_is. rewrite (pr_mode _ _ S). destruct (dv_mode d); reflexivity.
  - apply count_zero; [exact Hr|]. intros d d' S. unfold mode_is. rewrite (pr_mode _ _ S). destruct (dv_mode d); reflexivity.
  - apply count_pair; [exact Hr|]. intros d d' S. unfold mode_is. rewrite (pr_mode _ _ S). destruct (dv_mode d); reflexivity.
  - apply count_pair; [exact Hr|]. intros d d' S. unfold mode_is. rewrite (pr_mode _ _ S). destruct (dv_mode d); reflexivity.
Qed.
Theorem rank_awake r : (r < ms_ranks p)%nat -> exists v, rank_view p cs t r = Some v /\ rank_view p (awake cs) t r = Some (without v).
Proof using W T L U.
  intros Hr. destruct legal_awake as [T' L']. exists (spec_rank p r cs t). rewrite !rank_view_spec by auto. now rewrite spec_rank_awake.
Qed.
Theorem bank_awake r b : (r < ms_ranks p)%nat -> (b < ms_banks p)%nat ->
  exists v, bank_view p (awake cs) t r b = Some v /\
    cy_act v = cycles_where p r cs t (bank_in_use b) /\ cy_pre v = cycles_where p r cs t (bank_at_rest b) /\ cy_pda v = 0 /\ cy_pdp v = 0.
Proof using W T L U.
  intros Hr Hb. destruct legal_awake as [T' L']. exists (spec_bank p r b (awake cs) t). rewrite !bank_view_spec by auto. split; [reflexivity|].
  unfold spec_bank. cbn [cy_act cy_pre cy_pda cy_pdp].
  assert (NB : forall d d', pair d d' -> match nth_error (dv_banks d) b, nth_error (dv_banks d') b with Some x, Some y => sb_state y = sb_state x | None, None => True | _, _ => False end).
  { intros d d' [F _ _ _]. exact (nth_sim (fun x y => sb_state y = sb_state x) _ _ F b). }
  repeat apply conj.
  - apply count_pair; [exact Hr|]. intros d d' S. specialize (NB d d' S). unfold bank_acts, bank_in_use, mode_is. rewrite (pr_mode _ _ S).
    destruct (nth_error (dv_banks d) b), (nth_error (dv_banks d') b); try contradiction; auto. unfold busy. rewrite NB. destruct (dv_mode d); apply andb_true_r.
  - apply count_pair; [exact Hr|]. intros d d' S. specialize (NB d d' S). unfold bank_idles, bank_at_rest, mode_is. rewrite (pr_mode _ _ S).
    destruct (nth_error (dv_banks d) b), (nth_error (dv_banks d') b); try contradiction; auto. unfold busy. rewrite NB. destruct (dv_mode d), (sb_state s); reflexivity.
  - apply count_zero; [exact Hr|]. intros d d' S. unfold mode_is. rewrite (pr_mode _ _ S). destruct (dv_mode d); reflexivity.
  - apply count_zero; [exact Hr|]. intros d d' S. unfold mode_is. rewrite (pr_mode _ _ S). destruct (dv_mode d); reflexivity.
Qed.
Lemma counted_awake k r b l : counted_in p k r b (awake l) = counted_in p k r b l.
Proof using.
  induction l as [|c l IH]; [reflexivity|]. unfold awake in *. cbn [filter]. destruct (power_down c) eqn:E; cbn [negb].
  - rewrite IH. cbn [counted_in fold_right]. fold (counted_in p k r b l). assert (HistorySpec.counted p k c b = 0)%nat as ->; [|destruct (_ =? r)%nat; reflexivity].
    unfold power_down in E. unfold HistorySpec.counted, is_cmd. destruct k, (cmd_type c); try discriminate; reflexivity.
  - cbn [counted_in fold_right]. fold (counted_in p k r b (filter (fun c => negb (power_down c)) l)) (counted_in p k r b l). now rewrite IH.
Qed.
Theorem counter_awake r b k : (r < ms_ranks p)%nat -> (b < ms_banks p)%nat ->
  exists n, bank_counter p cs t r b k = Some n /\ bank_counter p (awake cs) t r b k = Some n.
Proof using W T L U.
  intros Hr Hb. destruct legal_awake as [T' L'].
  destruct (counter_tally p cs t r b k W T L Hr Hb) as (d & D & C & _). destruct (counter_tally p (awake cs) t r b k W T' L' Hr Hb) as (d' & D' & C' & _).
  destruct (both t r Hr (N.le_refl t)) as (x & x' & X & X' & S). rewrite D in X. rewrite D' in X'. injection X as <-. injection X' as <-.
  exists (tally p cs d r b k). split; [exact C|]. rewrite C'. f_equal. unfold tally. rewrite !counted_awake.
  pose proof (nth_sim (fun x y => sb_state y = sb_state x) _ _ (pr_busy _ _ S) b) as N. destruct k; try reflexivity.
  destruct (nth_error (dv_banks d) b), (nth_error (dv_banks d') b); try contradiction; auto. unfold row_open. now rewrite N.
Qed.

(* ---- energy ---- *)
Lemma busy_open d : dv_mode d = ActPd -> forallb is_stable (dv_banks d) = true -> busy_banks d = open_rows d.
Proof using.
  intros _ F. unfold busy_banks, open_rows. f_equal. apply filter_ext_in. intros b Hb. rewrite forallb_forall in F. specialize (F b Hb). unfold is_stable, is_closed, is_open in F.
  unfold busy, row_open. destruct (sb_state b); try discriminate; reflexivity.
Qed.
Lemma same_count (P : sbank -> bool) d d' : (forall b b', sb_state b' = sb_state b -> P b' = P b) -> pair d d' -> length (filter P (dv_banks d')) = length (filter P (dv_banks d)).
Proof using. intros H [B _ _ _]. induction B as [|b b' l l' S B IH]; cbn; [reflexivity|]. rewrite (H b b' S). destruct (P b); cbn; congruence. Qed.
Lemma busy_none l : existsb busy l = false -> length (filter busy l) = 0%nat.
Proof using. induction l as [|b l IH]; cbn; [reflexivity|]. destruct (busy b); [discriminate|exact IH]. Qed.
Local Open Scope Q_scope.
Lemma standby_awake w I d d' : pair d d' -> standby w I d' == standby w I d + avoided w I d.
Proof using.
  intros S. unfold standby, avoided. rewrite (pr_mode _ _ S). assert (B : busy_banks d' = busy_banks d) by (apply same_count; [intros b b' E; unfold busy; now rewrite E|exact S]).
  destruct (dv_mode d) eqn:E; try ring; rewrite B.
  - ring.
  - destruct (pr_act _ _ S E) as [O F]. rewrite (busy_open d E F) in *. unfold busy_banks, open_rows in *.
    apply existsb_exists in O as (b & Hb & Ho). assert (In b (filter row_open (dv_banks d))) as Hf by (apply filter_In; split; [exact Hb|]; unfold is_open in Ho; unfold row_open; destruct (sb_state b); discriminate || reflexivity).
    destruct (filter row_open (dv_banks d)) as [|x l]; [contradiction|]. cbn [length]. ring.
  - unfold busy_banks. rewrite (busy_none _ (closed_none _ (pr_closed _ _ S ltac:(congruence) ltac:(congruence)))). ring.
Qed.
Lemma commands_awake e w I r : qsum (command_charge e w I) (filter (to_rank r) (awake cs)) == qsum (command_charge e w I) (filter (to_rank r) cs).
Proof using.
  clear. induction cs as [|c l IH]; [reflexivity|]. unfold awake in *. cbn [filter]. destruct (power_down c) eqn:E; cbn [negb filter].
  - destruct (to_rank r c); [|exact IH]. rewrite qsum_cons, IH. unfold power_down in E. unfold command_charge. destruct (cmd_type c); try discriminate; ring.
  - destruct (to_rank r c); [|exact IH]. rewrite !qsum_cons, IH. reflexivity.
Qed.
Lemma charge_awake e w I r : (r < ms_ranks p)%nat -> charge p e w I r (awake cs) t == charge p e w I r cs t + over_cycles p r cs t (avoided w I) * es_tCK e.
Proof using W T L U.
  intros Hr. unfold charge. rewrite commands_awake.
  assert (over_cycles p r (awake cs) t (standby w I) == over_cycles p r cs t (standby w I) + over_cycles p r cs t (avoided w I)) as ->.
  { rewrite <- over_plus. unfold over_cycles. apply qsum_ext. intros n Hn. apply in_seq in Hn. destruct (both (N.of_nat n) r Hr ltac:(lia)) as (d & d' & -> & -> & S). now apply standby_awake. }
  destruct (both t r Hr (N.le_refl t)) as (d & d' & -> & -> & S).
  assert (open_rows d' = open_rows d) as -> by (apply same_count; [intros b b' E; unfold row_open; now rewrite E|exact S]). ring.
Qed.
Theorem energy_awake e I : EnergySpec.well_formed e -> same_memory p e -> backgrounds e I ->
  exists s s' en en', run_core p cs (core_new p) = Ok s /\ run_core p (awake cs) (core_new p) = Ok s' /\
    calc_energy e (fill_core (snd (window_stats p t s))) = Exactly en /\ calc_energy e (fill_core (snd (window_stats p t s'))) = Exactly en' /\
    en_total en' == en_total en + saving p e I cs t.
Proof using W T L U.
  intros WE SM B. destruct legal_awake as [T' L'].
  destruct (legal_history_accepted p cs t W T L) as [s S]. destruct (legal_history_accepted p (awake cs) t W T' L') as [s' S'].
  destruct (core_energy_charge p e I _ t s W WE SM B T L S) as (en & E & C). destruct (core_energy_charge p e I _ t s' W WE SM B T' L' S') as (en' & E' & C').
  exists s, s', en, en'. repeat (split; [assumption|]). rewrite C, C'. unfold saving. rewrite <- qsum_plus. apply qsum_ext. intros w _.
  rewrite <- qsum_plus. apply qsum_ext. intros r Hr. apply in_seq in Hr. rewrite charge_awake by lia. ring.
Qed.
Lemma avoided_positive e I w r : backgrounds e I -> worthwhile e I -> In w (es_domains e) -> (r < ms_ranks p)%nat -> 0 <= over_cycles p r cs t (avoided w (I w)).
Proof using W T L U.
  intros B [_ WO] Hw Hr. destruct (WO w Hw) as (V & A1 & A2 & A3). unfold over_cycles. apply qsum_nonneg. intros n Hn. apply in_seq in Hn.
  destruct (both (N.of_nat n) r Hr ltac:(lia)) as (d & d' & -> & _ & S). unfold avoided. destruct (dv_mode d) eqn:E; try apply Qle_refl.
  - destruct (pr_act _ _ S E) as [O _]. assert (1 <= qnat (open_rows d)) as Q1.
    { apply existsb_exists in O as (b & Hb & Ho). assert (In b (filter row_open (dv_banks d))) as Hf by (apply filter_In; split; [exact Hb|]; unfold is_open in Ho; unfold row_open; destruct (sb_state b); discriminate || reflexivity).
      unfold open_rows. destruct (filter row_open (dv_banks d)) as [|x l]; [contradiction|]. cbn [length]. unfold qnat, Qle. cbn. lia. }
    destruct (B w Hw) as [AF _]. rewrite (AF (qnat (open_rows d))).
    assert (I w 1 <= I w 0 + qnat (open_rows d) * (I w 1 - I w 0)); [|lra].
    assert (0 <= (qnat (open_rows d) - 1) * (I w 1 - I w 0)) as Z by (apply Qmult_le_0_compat; lra). lra.
  - lra.
Qed.
Theorem saves e I : EnergySpec.well_formed e -> same_memory p e -> backgrounds e I -> worthwhile e I ->
  exists s s' en en', run_core p cs (core_new p) = Ok s /\ run_core p (awake cs) (core_new p) = Ok s' /\
    calc_energy e (fill_core (snd (window_stats p t s))) = Exactly en /\ calc_energy e (fill_core (snd (window_stats p t s'))) = Exactly en' /\
    en_total en <= en_total en'.
Proof using W T L U.
  intros WE SM B WO. destruct (energy_awake e I WE SM B) as (s & s' & en & en' & S & S' & E & E' & C). exists s, s', en, en'. repeat (split; [assumption|]). rewrite C.
  assert (0 <= saving p e I cs t); [|lra]. unfold saving. apply qsum_nonneg. intros w Hw. apply qsum_nonneg. intros r Hr. apply in_seq in Hr.
  pose proof (avoided_positive e I w r B WO Hw ltac:(lia)) as P. destruct WO as [TC WO]. destruct (WO w Hw) as (V & _).
  apply Qmult_le_0_compat; [unfold qnat, Qle; cbn; lia|]. apply Qmult_le_0_compat; [exact V|]. now apply Qmult_le_0_compat.
Qed.

(* Without active power-down the saving can be read off the reported times. *)
Theorem saving_precharge e I (f : nat -> N) : (forall c, In c cs -> cmd_type c <> PDEA) ->
  (forall r v, (r < ms_ranks p)%nat -> rank_view p cs t r = Some v -> f r = cy_pdp v) ->
  saving p e I cs t == qsum (fun w => qsum (fun r => qnat (es_devices e) * (pw_v w * ((pw_i2n w - pw_i2p w) * cycles_time e (f r)))) (seq 0 (ms_ranks p))) (es_domains e).
Proof using W T L.
  clear U. intros NA F. unfold saving. apply qsum_ext. intros w _. apply qsum_ext. intros r Hr. apply in_seq in Hr.
  assert (over_cycles p r cs t (avoided w (I w)) == (pw_i2n w - pw_i2p w) * qn (f r)) as ->; [|unfold cycles_time; ring].
  rewrite (F r (spec_rank p r cs t)) by (try lia; now rewrite rank_view_spec by (auto; lia)). cbn [spec_rank cy_pdp]. rewrite qn_cycles, <- over_scale. apply over_ext. intros n d Hn D.
  destruct (device_awake p r cs true nd (fun c Hc _ => NA c Hc) n d D) as (d' & _ & S). destruct (wd_keep _ _ _ S eq_refl) as [NM _].
  unfold avoided, mode_is. destruct (dv_mode d); cbn [smode_beq b2q]; try congruence; ring.
Qed.
End Trace.
