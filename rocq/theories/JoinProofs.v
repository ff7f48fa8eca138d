(* What two traces put on the wires one after the other is what each of them puts
   there alone. *)
From Coq Require Import NArith ZArith QArith Qround List Bool Arith Lia.
From Verif Require Import Base Command CoreModel Bits WaveSpec BitFacts BusProofs ClockProofs ToggleModel ToggleProofs StatsModel StatsSpec EnergyModel EnergySpec IfEnergyModel IfEnergySpec
  InterfaceModel InterfaceSpec WireSpec AmbleSpec ProgressSpec ChargeSpec ComposeSpec ComposeTop MemSpecModel MemSpecSpec WholeSpec JoinSpec.
Import ListNotations.
Local Open Scope N_scope.
Ltac Zify.zify_post_hook ::= idtac.

(* ---- waveforms ---- *)
Definition shifted (M : N) (ds : drives) : drives := map (fun d => (fst d + M, snd d)) ds.
Lemma wire_shifted idle M ds k : wire idle (shifted M ds) (M + k) = wire idle ds k.
Proof.
  unfold wire. induction ds as [|d ds IH]; [reflexivity|]. cbn [shifted map find fst snd]. fold (shifted M ds).
  replace (fst d + M <=? M + k) with (fst d <=? k) by (destruct (N.leb_spec (fst d) k), (N.leb_spec (fst d + M) (M + k)); try reflexivity; lia).
  replace (M + k <? fst d + M + N.of_nat (length (snd d))) with (k <? fst d + N.of_nat (length (snd d)))
    by (destruct (N.ltb_spec k (fst d + N.of_nat (length (snd d)))), (N.ltb_spec (M + k) (fst d + M + N.of_nat (length (snd d)))); try reflexivity; lia).
  destruct ((fst d <=? k) && (k <? fst d + N.of_nat (length (snd d)))) eqn:E; [|exact IH]. cbn [fst snd]. f_equal. apply andb_prop in E as [E _]. apply N.leb_le in E. lia.
Qed.
Lemma shifted_after M ds i : i < M -> Forall (fun d => i < fst d) (shifted M ds).
Proof. intros H. apply Forall_map, Forall_forall. intros d _. cbn [fst]. lia. Qed.
Lemma wire_after idle ds ds' i : Forall (fun d => drive_end d <= i) ds -> wire idle (ds ++ ds') i = wire idle ds' i.
Proof.
  intros H. unfold wire. induction H as [|d ds Hd _ IH]; [reflexivity|]. cbn [app find]. unfold drive_end in Hd.
  destruct (N.ltb_spec i (fst d + N.of_nat (length (snd d)))); [lia|]. rewrite andb_false_r. exact IH.
Qed.
Lemma wave_join width idle ds1 ds2 M n : Forall (fun d => drive_end d < M) ds1 ->
  wave_stats width idle (ds1 ++ shifted M ds2) (M + n) = add_exact (wave_stats width idle ds1 M) (wave_stats width idle ds2 n).
Proof.
  intros H. rewrite (wave_stats_split _ _ _ M (M + n)) by lia. f_equal.
  - apply wave_stats_ext. intros i Hi. apply wire_app_before, shifted_after, Hi.
  - replace (M + n - M) with n by lia. unfold wave_stats. apply sum_beats_ext. intros i _. unfold beat_at.
    assert (forall k, wire idle (ds1 ++ shifted M ds2) (M + k) = wire idle ds2 k) as W.
    { intros k. rewrite wire_after, wire_shifted; [reflexivity|]. eapply Forall_impl; [|exact H]. cbn beta. intros d Hd. lia. }
    rewrite W. f_equal. unfold wire_before. destruct (N.eqb_spec i 0) as [->|Hi].
    + rewrite N.add_0_r. destruct (N.eqb_spec M 0); [reflexivity|]. rewrite wire_app_before by (apply shifted_after; lia). apply wire_none.
      eapply Forall_impl; [|exact H]. cbn beta. intros d Hd. lia.
    + destruct (N.eqb_spec (M + i) 0); [lia|]. replace (M + i - 1) with (M + (i - 1)) by lia. apply W.
Qed.

(* ---- lists of commands ---- *)
Lemma flat_app {A B} (f : A -> list B) x y : flat_map f (x ++ y) = flat_map f x ++ flat_map f y.
Proof. induction x as [|a x IH]; [reflexivity|]. cbn [app flat_map]. rewrite IH, app_assoc. reflexivity. Qed.
Lemma ca_app p bus x y : ca_drives p bus (x ++ y) = ca_drives p bus x ++ ca_drives p bus y.
Proof. apply flat_app. Qed.
Lemma words_delay p bus T c : command_words p bus (delay T c) = command_words p bus c.
Proof. reflexivity. Qed.
Lemma ca_later p bus T cs : ca_drives p bus (later T cs) = shifted (T * ca_beats (fi_std p)) (ca_drives p bus cs).
Proof.
  induction cs as [|c cs IH]; [reflexivity|]. change (later T (c :: cs)) with (delay T c :: later T cs). change (c :: cs) with ([c] ++ cs). change (delay T c :: later T cs) with ([delay T c] ++ later T cs).
  rewrite !ca_app, IH. unfold shifted. rewrite map_app. f_equal. unfold ca_drives. cbn [flat_map]. change (cmd_type (delay T c)) with (cmd_type c). rewrite words_delay.
  destruct (silent (fi_std p) (cmd_type c)); [reflexivity|]. cbn [app map fst snd]. change (cmd_ts (delay T c)) with (cmd_ts c + T). rewrite N.mul_add_distr_r. reflexivity.
Qed.
Lemma do_app x y : map Do (x ++ y) = map Do x ++ map Do y. Proof. apply map_app. Qed.
Lemma data_app p read dbi meta x ys : data_drives p read dbi meta (map Do x ++ ys) = data_drives p read dbi meta (map Do x) ++ data_drives p read dbi meta ys.
Proof. induction x as [|c x IH]; [reflexivity|]. cbn [map app data_drives]. rewrite IH, app_assoc. reflexivity. Qed.
Lemma sends_delay read T c : sends read (delay T c) = sends read c. Proof. reflexivity. Qed.
Lemma burst_delay p dbi meta T c : burst_words p dbi meta (delay T c) = burst_words p dbi meta c. Proof. reflexivity. Qed.
Lemma data_later p read dbi meta T cs : data_drives p read dbi meta (map Do (later T cs)) = shifted (T * fi_rate p) (data_drives p read dbi meta (map Do cs)).
Proof.
  induction cs as [|c cs IH]; [reflexivity|]. change (later T (c :: cs)) with (delay T c :: later T cs). cbn [map data_drives]. rewrite IH, sends_delay, burst_delay. unfold shifted. rewrite map_app. f_equal.
  destruct (sends read c); [|reflexivity]. cbn [map fst snd]. change (cmd_ts (delay T c)) with (cmd_ts c + T). rewrite N.mul_add_distr_r. reflexivity.
Qed.
Lemma total_app p bus w x y : total_cycles p bus w (x ++ y) = total_cycles p bus w x + total_cycles p bus w y.
Proof.
  unfold total_cycles. rewrite filter_app, map_app. induction (map (burst_cycles p bus) (filter _ x)) as [|a l IH]; [reflexivity|]. cbn [app fold_right]. rewrite IH. lia.
Qed.
Lemma total_later p bus w T cs : total_cycles p bus w (later T cs) = total_cycles p bus w cs.
Proof.
  induction cs as [|c cs IH]; [reflexivity|]. change (later T (c :: cs)) with ([delay T c] ++ later T cs). change (c :: cs) with ([c] ++ cs). rewrite !total_app, IH. f_equal.
  unfold total_cycles. cbn [filter]. change (cmd_type (delay T c)) with (cmd_type c). destruct (match transfers (cmd_type c) with Some read => w read | None => false end); reflexivity.
Qed.

(* ---- what the commands drive is over ---- *)
Lemma ca_over p bus cs T : quiet p bus cs T -> Forall (fun d => drive_end d < T * ca_beats (fi_std p)) (ca_drives p bus cs).
Proof.
  unfold ca_drives. induction 1 as [|c cs [_ [H _]] _ IH]; [constructor|]. cbn [flat_map]. apply Forall_app. split; [|exact IH].
  destruct (silent (fi_std p) (cmd_type c)); [constructor|]. constructor; [|constructor]. exact (H eq_refl).
Qed.
Lemma sends_transfers read c : sends read c = true -> transfers (cmd_type c) <> None.
Proof. unfold sends. destruct (transfers (cmd_type c)); [discriminate|discriminate]. Qed.
Lemma burst_length p dbi meta c : N.of_nat (length (burst_words p dbi meta c)) = burst_beats p true c.
Proof.
  unfold burst_words, burst_beats. cbv zeta. rewrite map_length, seq_length. rewrite Nat2N.inj_div, !N2Nat.id. reflexivity.
Qed.
Lemma data_over p read cs T : quiet p true cs T -> Forall (fun d => drive_end d < T * fi_rate p) (data_drives p read false (0, 0) (map Do cs)).
Proof.
  induction 1 as [|c cs [_ [_ H]] _ IH]; [constructor|]. cbn [map data_drives]. apply Forall_app. split; [|exact IH].
  destruct (sends read c) eqn:E; [|constructor]. constructor; [|constructor]. unfold drive_end. cbn [fst snd]. rewrite burst_length. exact (H (sends_transfers _ _ E)).
Qed.

(* ---- counts ---- *)
Lemma stats_ext a b : ones a = ones b -> zeroes a = zeroes b -> changes a = changes b -> o2z a = o2z b -> z2o a = z2o b -> a = b.
Proof. destruct a, b. cbn. congruence. Qed.
Lemma periods_sum k half a b : scale k (periods half (a + b)) = add_exact (scale k (periods half a)) (scale k (periods half b)).
Proof. apply stats_ext; unfold scale, periods, add_exact; cbn [ones zeroes changes o2z z2o]; ring. Qed.
Lemma stats0_sum : stats0 = add_exact stats0 stats0. Proof. reflexivity. Qed.

Theorem wires_join p cs1 cs2 T t : quiet p true cs1 T ->
  forall g, wire_counts p None (cs1 ++ later T cs2) (T + t) g = add_exact (wire_counts p None cs1 T g) (wire_counts p None cs2 t g).
Proof.
  intros Q g. unfold wire_counts, data_counts. cbv zeta. cbn [no_toggle]. destruct g; try reflexivity; rewrite ?total_app, ?total_later, ?do_app, ?ca_app, ?ca_later, ?data_app, ?data_later, ?N.mul_add_distr_r.
  - apply periods_sum.
  - destruct (fi_wck_on p); apply periods_sum.
  - apply wave_join, ca_over, Q.
  - apply wave_join, data_over, Q.
  - apply wave_join, data_over, Q.
  - apply periods_sum.
  - apply periods_sum.
Qed.

(* ---- estimates ---- *)
Lemma lengths_app p read x y : burst_lengths p read (x ++ y) = burst_lengths p read x ++ burst_lengths p read y.
Proof. apply flat_app. Qed.
Definition moved (T : N) (o : toggle_op) : toggle_op := match o with TLoad t n => TLoad (t + T) n | TDisable t => TDisable (t + T) | TEnable t => TEnable (t + T) end.
Lemma lengths_later p read T cs : burst_lengths p read (later T cs) = map (moved T) (burst_lengths p read cs).
Proof.
  induction cs as [|c cs IH]; [reflexivity|]. change (later T (c :: cs)) with ([delay T c] ++ later T cs). change (c :: cs) with ([c] ++ cs).
  rewrite !lengths_app, IH, map_app. f_equal. unfold burst_lengths. cbn [flat_map]. change (cmd_type (delay T c)) with (cmd_type c).
  destruct (transfers (cmd_type c)) as [r|]; [|reflexivity]. destruct (eqb r read); reflexivity.
Qed.
Lemma filter_moved f m k : forall a, length (filter (fun i => f (N.of_nat i)) (seq (N.to_nat m + a) k)) = length (filter (fun i => f (m + N.of_nat i)) (seq a k)).
Proof.
  induction k as [|k IH]; intros a; [reflexivity|]. cbn [seq filter]. replace (N.of_nat (N.to_nat m + a)) with (m + N.of_nat a) by lia.
  replace (S (N.to_nat m + a)) with (N.to_nat m + S a)%nat by lia. destruct (f (m + N.of_nat a)); cbn [length]; rewrite IH; reflexivity.
Qed.
Lemma beats_split m n f : beats (m + n) f = beats m f + beats n (fun k => f (m + k)).
Proof.
  unfold beats, lines. replace (N.to_nat (m + n)) with (N.to_nat m + N.to_nat n)%nat by lia. rewrite seq_app, filter_app, app_length, Nat2N.inj_add. f_equal. f_equal.
  rewrite <- (filter_moved f m _ 0%nat). rewrite Nat.add_0_r. reflexivity.
Qed.
Lemma beats_ext n f g : (forall k, k < n -> f k = g k) -> beats n f = beats n g.
Proof.
  intros H. unfold beats, lines. f_equal. f_equal. apply filter_ext_in. intros i Hi. apply in_seq in Hi. apply H. lia.
Qed.

(* The estimator after the first trace, and one that starts afresh. *)
Definition same_est (M : N) (s s' : est) : Prop :=
  e_on s = true /\ e_on s' = true /\
  match e_burst s' with
  | Some (b, l) => e_burst s = Some (b + M, l)
  | None => match e_burst s with Some (b, l) => b + l <= M | None => True end
  end.
Definition is_length (o : toggle_op) : Prop := match o with TLoad _ _ => True | _ => False end.
Lemma est_both width rate T ops k : Forall is_length ops -> forall s s', same_est (T * rate) s s' ->
  same_est (T * rate) (est_at width rate s (map (moved T) ops) (T * rate + k)) (est_at width rate s' ops k).
Proof.
  unfold est_at. induction 1 as [|o ops Ho _ IH]; intros s s' R; [exact R|]. cbn [map fold_left]. apply IH. destruct o as [t n| |]; try contradiction. cbn [moved toggle_time].
  replace ((t + T) * rate <=? T * rate + k) with (t * rate <=? k) by (destruct (N.leb_spec (t * rate) k), (N.leb_spec ((t + T) * rate) (T * rate + k)); try reflexivity; nia).
  destruct (t * rate <=? k); [|exact R]. destruct R as (A & B & _). cbn [est_step]. rewrite A, B. repeat split; try reflexivity. cbn [e_burst]. rewrite N.mul_add_distr_r. reflexivity.
Qed.
Lemma est_late width rate T ops k s : k < T * rate -> est_at width rate s (map (moved T) ops) k = s.
Proof.
  intros H. unfold est_at. revert s. induction ops as [|o ops IH]; intros s; [reflexivity|]. cbn [map fold_left].
  assert (T <= toggle_time (moved T o)) as L by (destruct o; cbn; lia). destruct (N.leb_spec (toggle_time (moved T o) * rate) k) as [C|C]; [nia|]. apply IH.
Qed.
Definition ends_by (width rate M : N) (o : toggle_op) : Prop := match o with TLoad t n => t * rate + n / width <= M /\ t * rate <= M | _ => False end.
Lemma est_first width rate M ops k : Forall (ends_by width rate M) ops -> forall s, same_est M s (mkEst true None) ->
  same_est M (est_at width rate s ops k) (mkEst true None).
Proof.
  unfold est_at. induction 1 as [|o ops Ho _ IH]; intros s R; [exact R|]. cbn [fold_left]. apply IH. destruct o as [t n| |]; try contradiction. cbn [toggle_time].
  destruct (t * rate <=? k); [|exact R]. destruct R as (A & B & _). cbn [est_step]. rewrite A. repeat split. cbn [e_burst]. apply Ho.
Qed.
Lemma driven_same M s s' k : same_est M s s' -> driven s (M + k) = driven s' k.
Proof.
  intros (_ & _ & R). unfold driven. destruct (e_burst s') as [[b l]|].
  - rewrite R. destruct (N.ltb_spec k (b + l)), (N.ltb_spec (M + k) (b + M + l)); try reflexivity; lia.
  - destruct (e_burst s) as [[b l]|]; [|reflexivity]. apply N.ltb_ge. lia.
Qed.
Lemma est_app width rate s x y k : est_at width rate s (x ++ y) k = est_at width rate (est_at width rate s x k) y k.
Proof. apply fold_left_app. Qed.
Lemma driven_join width rate T ops1 ops2 n : Forall (ends_by width rate (T * rate)) ops1 -> Forall is_length ops2 ->
  beats_driven width rate true (ops1 ++ map (moved T) ops2) (T * rate + n) = beats_driven width rate true ops1 (T * rate) + beats_driven width rate true ops2 n.
Proof.
  intros H1 H2. unfold beats_driven. rewrite beats_split. f_equal; apply beats_ext; intros k Hk.
  - rewrite est_app, est_late by exact Hk. reflexivity.
  - rewrite est_app. apply driven_same, est_both; [exact H2|]. apply est_first; [exact H1|]. repeat split.
Qed.
Lemma lengths_ends p read cs T : quiet p false cs T -> Forall (ends_by (dq_lines p) (fi_rate p) (T * fi_rate p)) (burst_lengths p read cs).
Proof.
  unfold burst_lengths. induction 1 as [|c cs [H0 [_ H]] _ IH]; [constructor|]. cbn [flat_map]. apply Forall_app. split; [|exact IH].
  destruct (transfers (cmd_type c)) as [r|]; [|constructor]. destruct (eqb r read); [|constructor]. constructor; [|constructor]. cbn [ends_by].
  assert (cmd_ts c * fi_rate p + burst_beats p false c < T * fi_rate p) as X by (apply H; discriminate). unfold burst_beats in X. split; [lia|]. apply N.mul_le_mono_r, H0.
Qed.
Lemma lengths_only p read cs : Forall is_length (burst_lengths p read cs).
Proof.
  unfold burst_lengths. induction cs as [|c cs IH]; [constructor|]. cbn [flat_map]. apply Forall_app. split; [|exact IH].
  destruct (transfers (cmd_type c)) as [r|]; [|constructor]. destruct (eqb r read); repeat constructor.
Qed.
Lemma share_join d1 d2 q : (0 <= q)%Q -> share d1 q + share d2 q <= share (d1 + d2) q <= share d1 q + share d2 q + 1.
Proof.
  intros Hq. unfold share, of_u64.
  assert (forall d, (0 <= inject_Z (Z.of_N d) * q)%Q) as P by (intros d; apply Qmult_le_0_compat; [change 0%Q with (inject_Z 0); rewrite <- Zle_Qle; lia|exact Hq]).
  assert (forall d, (0 <= Qfloor (inject_Z (Z.of_N d) * q))%Z) as F by (intros d; change 0%Z with (Qfloor 0); apply Qfloor_resp_le, P).
  pose proof (F d1) as F1. pose proof (F d2) as F2. pose proof (F (d1 + d2)) as F3.
  assert (inject_Z (Z.of_N (d1 + d2)) * q == inject_Z (Z.of_N d1) * q + inject_Z (Z.of_N d2) * q)%Q as E by (rewrite N2Z.inj_add, inject_Z_plus; ring).
  rewrite (Qfloor_comp _ _ E) in *. set (x := (inject_Z (Z.of_N d1) * q)%Q) in *. set (y := (inject_Z (Z.of_N d2) * q)%Q) in *.
  assert (Qfloor x + Qfloor y <= Qfloor (x + y) <= Qfloor x + Qfloor y + 1)%Z as B.
  { pose proof (Qfloor_le x) as X1. pose proof (Qlt_floor x) as X2. pose proof (Qfloor_le y) as Y1. pose proof (Qlt_floor y) as Y2. split.
    - rewrite <- (Qfloor_Z (Qfloor x + Qfloor y)). apply Qfloor_resp_le. rewrite inject_Z_plus. apply Qplus_le_compat; assumption.
    - pose proof (Qfloor_le (x + y)) as Z1. assert (inject_Z (Qfloor (x + y)) < inject_Z (Qfloor x + 1 + (Qfloor y + 1)))%Q as L.
      { eapply Qle_lt_trans; [exact Z1|]. rewrite inject_Z_plus. eapply Qlt_le_trans; [apply Qplus_lt_l; exact X2|]. apply Qplus_le_compat; [apply Qle_refl|apply Qlt_le_weak, Y2]. }
      rewrite <- Zlt_Qlt in L. lia. }
  lia.
Qed.
Lemma estimate_join w d1 i1 d2 i2 r du h : fraction r -> fraction du ->
  exceeds w (estimate w (d1 + d2) (i1 + i2) r du h) (add_exact (estimate w d1 i1 r du h) (estimate w d2 i2 r du h)).
Proof.
  intros [R1 _] [D1 D2].
  assert (0 <= r / 2)%Q as R2 by (apply Qle_shift_div_l; [reflexivity|rewrite Qmult_0_l; exact R1]).
  assert (0 <= 1 - du)%Q as D3 by (rewrite <- (Qplus_opp_r du); apply Qplus_le_compat; [exact D2|apply Qle_refl]).
  pose proof (share_join d1 d2 _ R2) as A. pose proof (share_join d1 d2 _ D1) as B. pose proof (share_join d1 d2 _ D3) as C.
  unfold exceeds, estimate, add_exact. cbn [ones zeroes changes o2z z2o].
  destruct h; repeat split; nia.
Qed.
Lemma driven_le width rate ops n : beats_driven width rate true ops n <= n.
Proof.
  unfold beats_driven, beats, lines. transitivity (N.of_nat (length (seq 0 (N.to_nat n)))); [|rewrite seq_length; lia].
  generalize (seq 0 (N.to_nat n)) as l. intros l. induction l as [|a l IH]; [cbn; lia|]. cbn [filter]. destruct (driven _ _); cbn [length]; lia.
Qed.

Theorem estimates_join p d cs1 cs2 T t : good_toggle d -> quiet p false cs1 T ->
  forall g, (g = RDQ \/ g = WDQ -> exceeds (dq_lines p) (wire_counts p (Some d) (cs1 ++ later T cs2) (T + t) g) (add_exact (wire_counts p (Some d) cs1 T g) (wire_counts p (Some d) cs2 t g))) /\
    (g <> RDQ -> g <> WDQ -> wire_counts p (Some d) (cs1 ++ later T cs2) (T + t) g = add_exact (wire_counts p (Some d) cs1 T g) (wire_counts p (Some d) cs2 t g)).
Proof.
  intros (G1 & G2 & G3 & G4 & _) Q g. split.
  - assert (forall read r du h, fraction r -> fraction du ->
      let busy cs n := beats_driven (dq_lines p) (fi_rate p) true (burst_lengths p read cs) n in
      let est cs n := estimate (dq_lines p) (busy cs n) (n - busy cs n) r du h in
      exceeds (dq_lines p) (est (cs1 ++ later T cs2) ((T + t) * fi_rate p)) (add_exact (est cs1 (T * fi_rate p)) (est cs2 (t * fi_rate p)))) as K.
    { intros read r du h Hr Hd busy est. unfold est, busy. rewrite lengths_app, lengths_later, N.mul_add_distr_r, driven_join by (apply lengths_ends, Q || apply lengths_only).
      pose proof (driven_le (dq_lines p) (fi_rate p) (burst_lengths p read cs1) (T * fi_rate p)) as L1. pose proof (driven_le (dq_lines p) (fi_rate p) (burst_lengths p read cs2) (t * fi_rate p)) as L2.
      set (b1 := beats_driven _ _ _ (burst_lengths p read cs1) _) in *. set (b2 := beats_driven _ _ _ (burst_lengths p read cs2) _) in *.
      replace (T * fi_rate p + t * fi_rate p - (b1 + b2)) with ((T * fi_rate p - b1) + (t * fi_rate p - b2)) by lia. apply estimate_join; assumption. }
    unfold wire_counts, data_counts. cbv zeta. intros [->| ->]; [exact (K true _ _ _ G1 G2)|exact (K false _ _ _ G3 G4)].
  - unfold wire_counts. cbv zeta. cbn [no_toggle]. intros N1 N2. destruct g; try contradiction; try reflexivity; rewrite ?total_app, ?total_later, ?ca_app, ?ca_later, ?N.mul_add_distr_r.
    + apply periods_sum.
    + destruct (fi_wck_on p); apply periods_sum.
    + apply wave_join, ca_over, Q.
    + apply periods_sum.
    + apply periods_sum.
Qed.
