(* The bounds from power-on, the growth of the energy, and an object that is asked
   twice. *)
From Coq Require Import ZArith QArith NArith Qabs List Bool Lia Lqa.
From Verif Require Import Base Command CoreModel HistorySpec DeviceSpec DeviceFacts ExampleCores.
From Verif Require Import Bits StatsModel EnergyModel EnergySpec EnergyProofs EnergyMore EnergyExamples DramModel DramSpec DramExamples ProgressExamples ProgressTop ChargeSpec ChargeBase ChargeProofs ChargeTop BoundSpec BoundProofs ComposeExamples.
Import ListNotations.
Local Open Scope Q_scope.

Lemma always_zero e w I : sane_domain e w I -> always_draws e w 0.
Proof. intros [_ H _ _ _ (A & B & C & D) _ _ _]. repeat split; auto. Qed.
Lemma sane_zero e : sane e -> forall w, In w (es_domains e) -> always_draws e w 0.
Proof. intros S w Hw. destruct (sn_domains e S w Hw) as (I & _ & D). exact (always_zero e w I D). Qed.
Definition largest (e : espec) (w : power) (I : Q -> Q) : Q :=
  Qabs (pw_i2n w) + Qabs (pw_i3p w) + Qabs (pw_i2p w) + Qabs (pw_i6 w) + Qabs (pw_i6ds w) + Qabs (I (qnat (es_banks e))).
Lemma largest_ok e w I : never_exceeds e w I (largest e w I).
Proof.
  unfold largest.
  pose proof (Qle_Qabs (pw_i2n w)). pose proof (Qabs_nonneg (pw_i2n w)). pose proof (Qle_Qabs (pw_i3p w)). pose proof (Qabs_nonneg (pw_i3p w)).
  pose proof (Qle_Qabs (pw_i2p w)). pose proof (Qabs_nonneg (pw_i2p w)). pose proof (Qle_Qabs (pw_i6 w)). pose proof (Qabs_nonneg (pw_i6 w)).
  pose proof (Qle_Qabs (pw_i6ds w)). pose proof (Qabs_nonneg (pw_i6ds w)). pose proof (Qle_Qabs (I (qnat (es_banks e)))). pose proof (Qabs_nonneg (I (qnat (es_banks e)))).
  split; [lra|]. split; [lra|]. split; [lra|]. split; [lra|]. split; [intros _; lra|lra].
Qed.
Lemma no_draw e n : constant_draw e (fun _ => 0) n == 0.
Proof. unfold constant_draw. apply qsum_zero. intros w _. apply qsum_zero. intros r _. ring. Qed.

(* The energy of one history is one number. *)
Lemma core_energy_one p e cs t x y : core_energy p e cs t x -> core_energy p e cs t y -> x = y.
Proof. intros (s & en & A & B & <-) (s' & en' & A' & B' & <-). rewrite A in A'. assert (s = s') as <- by congruence. rewrite B in B'. congruence. Qed.

Lemma power_on p e I : EnergySpec.well_formed e -> DeviceSpec.well_formed p -> same_memory p e -> backgrounds e I -> forall x, core_energy p e [] 0 x -> timely p [] 0 -> legal_history p [] -> x == 0.
Proof.
  intros We Wp SM B x (s & en & A & C & <-) T L. destruct (core_energy_charge p e I [] 0 s Wp We SM B T L A) as (en' & C' & Z).
  rewrite C in C'. assert (en = en') as <- by congruence. rewrite Z. unfold energy_of. apply qsum_zero. intros w _. apply qsum_zero. intros r _. rewrite idle_charge. unfold cycles_time. change (qn 0) with 0. ring.
Qed.
Lemma no_rows p e : rows_draw p e [] 0 == 0.
Proof.
  unfold rows_draw. apply qsum_zero. intros w _. apply qsum_zero. intros r _.
  assert (device_at p r [] 0 = Some (device_new p)) as ->.
  { unfold device_at. cbn [filter run_device option_map]. f_equal. unfold settle, device_new. cbn [dv_pend dv_banks dv_mode]. f_equal.
    rewrite <- (map_id (repeat _ _)) at 2. apply map_ext_in. intros x Hx. apply repeat_spec in Hx. subst x. reflexivity. }
  assert (filter row_open (dv_banks (device_new p)) = []) as O.
  { unfold device_new. cbn [dv_banks]. generalize (ms_banks p). intros n. induction n; cbn; auto. }
  unfold open_rows. rewrite O. change (qnat (length (@nil sbank))) with 0. ring.
Qed.

Section FromPowerOn.
Context (p : memspec) (e : espec) (I : power -> Q -> Q) (cs : list Command) (t : N).
Hypothesis Wp : DeviceSpec.well_formed p.
Hypothesis We : EnergySpec.well_formed e.
Hypothesis SM : same_memory p e.
Hypothesis S : sane e.
Hypothesis B : backgrounds e I.
Hypothesis T : timely p cs t.
Hypothesis L : legal_history p cs.

Theorem floor_ceiling lo hi : (forall w, In w (es_domains e) -> always_draws e w (lo w) /\ never_exceeds e w (I w) (hi w)) ->
  exists x, core_energy p e cs t x /\ constant_draw e lo t <= x /\ x <= constant_draw e hi t + commands_draw e I cs.
Proof using Wp We SM S B T L.
  intros H. assert (final_time 0 (map cmd_ts []) <= 0)%N as F1 by (cbn; lia). assert (forall c, In c cs -> (0 <= cmd_ts c)%N) as F3 by (intros; lia).
  destruct (window_bounds p e I [] cs 0 t Wp We SM S B T L F1 (N.le_0_l t) F3 lo hi H) as (x1 & x2 & X1 & X2 & D & U).
  assert (timely p [] 0) as T0 by (apply (timely_prefix p [] cs t T 0 F1), N.le_0_l).
  pose proof (legal_history_cat p [] cs L) as L0. rewrite (power_on p e I We Wp SM B x1 X1 T0 L0), N.sub_0_r in D, U. rewrite no_rows in U.
  exists x2. split; [exact X2|]. split; lra.
Qed.
End FromPowerOn.

Theorem grows p e a b t1 t2 : DeviceSpec.well_formed p -> EnergySpec.well_formed e -> same_memory p e -> sane e ->
  timely p (a ++ b) t2 -> legal_history p (a ++ b) -> (final_time 0 (map cmd_ts a) <= t1)%N -> (t1 <= t2)%N -> (forall c, In c b -> (t1 <= cmd_ts c)%N) ->
  exists x1 x2, core_energy p e a t1 x1 /\ core_energy p e (a ++ b) t2 x2 /\ x1 <= x2.
Proof.
  intros Wp We SM S T L F1 F2 F3. assert (B : backgrounds e (bg e)) by (intros w _; now apply bg_exists).
  destruct (window_bounds p e (bg e) a b t1 t2 Wp We SM S B T L F1 F2 F3 (fun _ => 0) (fun w => largest e w (bg e w))) as (x1 & x2 & X1 & X2 & D & _).
  { intros w Hw. split; [now apply sane_zero|apply largest_ok]. }
  rewrite no_draw in D. exists x1, x2. split; [exact X1|]. split; [exact X2|]. lra.
Qed.

(* ---- an object that is asked twice ---- *)

Lemma core_ops_app a b : core_ops (a ++ b) = core_ops a ++ core_ops b. Proof. unfold core_ops. apply flat_map_app. Qed.
Lemma commands_app a b : HistorySpec.commands (a ++ b) = HistorySpec.commands a ++ HistorySpec.commands b.
Proof. induction a as [|[c|q] a IH]; cbn; rewrite ?IH; reflexivity. Qed.
Lemma commands_ops l : forall c, In c (HistorySpec.commands l) -> In (cmd_ts c) (map op_time l).
Proof. induction l as [|[x|q] l IH]; intros c Hc; cbn in *; [contradiction|destruct Hc as [->|Hc]; auto|auto]. Qed.
Lemma order_app l1 : forall from l2, nondecreasing from (l1 ++ l2) <-> nondecreasing from l1 /\ nondecreasing (final_time from l1) l2.
Proof. induction l1 as [|x l1 IH]; intros from l2; [cbn; tauto|]. cbn [app nondecreasing]. rewrite (IH x l2). change (final_time from (x :: l1)) with (final_time x l1). tauto. Qed.
Lemma order_ge l : forall f, nondecreasing f l -> forall x, In x l -> (f <= x)%N.
Proof. induction l as [|y l IH]; intros f H x Hx; cbn in *; [contradiction|]. destruct H as [A B]. destruct Hx as [->|Hx]; [exact A|]. specialize (IH y B x Hx). lia. Qed.
Lemma final_ge l : forall f, nondecreasing f l -> (f <= final_time f l)%N.
Proof. unfold final_time. induction l as [|x l IH]; intros f H; cbn in *; [lia|]. destruct H as [A B]. specialize (IH x B). lia. Qed.
Lemma final_commands l : forall g f, (g <= f)%N -> nondecreasing f (map op_time l) -> (final_time g (map cmd_ts (HistorySpec.commands l)) <= final_time f (map op_time l))%N.
Proof.
  induction l as [|[c|q] l IH]; intros g f H N; [exact H| |]; cbn in N; destruct N as [A B].
  - exact (IH (cmd_ts c) (cmd_ts c) (N.le_refl _) B).
  - cbn [HistorySpec.commands]. change (final_time f (map op_time (Query q :: l))) with (final_time q (map op_time l)). apply IH; [lia|exact B].
Qed.

Theorem object_grows p us vs t1 t2 d0 d1 d2 d1' d2' st1 st2 : views_agree p -> (ms_std (dp_core p) = DDR5 -> es_groups (dp_ce p) = ms_groups (dp_core p)) ->
  DeviceSpec.well_formed (dp_core p) -> EnergySpec.well_formed (dp_ce p) -> sane (dp_ce p) ->
  dram_new p = Value d0 -> uses_run p us d0 = Returned d1 -> dram_window p t1 d1 = Returned (d1', st1) ->
  uses_run p vs d1' = Returned d2 -> dram_window p t2 d2 = Returned (d2', st2) ->
  nondecreasing 0 (map op_time (core_ops us) ++ t1 :: map op_time (core_ops vs) ++ [t2]) ->
  let cs := HistorySpec.commands (core_ops (us ++ vs)) in
  timely (dp_core p) cs t2 -> legal_history (dp_core p) cs ->
  exists en1 en2, calc_core_stats p st1 = Exactly en1 /\ calc_core_stats p st2 = Exactly en2 /\ en_total en1 <= en_total en2.
Proof.
  intros V G Wp We S D0 U1 W1 U2 W2 N cs T L. assert (B : backgrounds (dp_ce p) (bg (dp_ce p))) by (intros w _; now apply bg_exists).
  unfold cs in *. rewrite core_ops_app, commands_app in T, L.
  apply order_app in N. destruct N as [N1 N2]. cbn [nondecreasing] in N2. destruct N2 as [N2 N3]. apply order_app in N3. destruct N3 as [N3 N4]. cbn [nondecreasing] in N4. destruct N4 as [N4 _].
  set (a := HistorySpec.commands (core_ops us)) in *. set (b := HistorySpec.commands (core_ops vs)) in *.
  pose proof (final_ge _ _ N3) as N5. pose proof (final_commands (core_ops us) 0 0 (N.le_refl 0) N1) as F1. fold a in F1.
  assert (t1 <= t2)%N as F2 by lia. assert (final_time 0 (map cmd_ts a) <= t1)%N as F1' by lia.
  assert (forall c, In c b -> (t1 <= cmd_ts c)%N) as F3 by (intros c Hc; apply commands_ops in Hc; apply (order_ge _ _ N3 _ Hc)).
  pose proof (timely_prefix _ a b t2 T t1 F1' F2) as TA. pose proof (legal_history_cat _ a b L) as LA.
  destruct (object_energy p (bg (dp_ce p)) us t1 d0 d1 d1' st1 V G Wp We B D0 U1 N1 N2 TA LA W1) as (en1 & E1 & C1).
  assert (UU : uses_run p (us ++ DramSpec.Ask t1 :: vs) d0 = Returned d2) by (rewrite uses_app, U1; cbn [uses_run use_do]; rewrite W1; exact U2).
  assert (CO : core_ops (us ++ DramSpec.Ask t1 :: vs) = core_ops us ++ Query t1 :: core_ops vs) by (rewrite core_ops_app; reflexivity).
  assert (CC : HistorySpec.commands (core_ops (us ++ DramSpec.Ask t1 :: vs)) = a ++ b) by (rewrite CO, commands_app; reflexivity).
  destruct (object_energy p (bg (dp_ce p)) (us ++ DramSpec.Ask t1 :: vs) t2 d0 d2 d2' st2 V G Wp We B D0 UU) as (en2 & E2 & C2); rewrite ?CC; auto.
  { rewrite CO, map_app. cbn [map op_time]. apply order_app. split; [exact N1|]. split; assumption. }
  { rewrite CO, map_app. unfold final_time. rewrite fold_left_app. exact N4. }
  rewrite CC in C2. exists en1, en2. split; [exact E1|]. split; [exact E2|]. rewrite C1, C2.
  assert (SM : same_memory (dp_core p) (dp_ce p)) by (destruct V as [V1 V2 V3 [V4 V5] V6]; constructor; auto).
  destruct (energies (dp_core p) (dp_ce p) (bg (dp_ce p)) a b t1 t2 Wp We SM S B T L F1' F2 F3) as (x1 & x2 & X1 & X2 & Y1 & Y2).
  destruct (grows (dp_core p) (dp_ce p) a b t1 t2 Wp We SM S T L F1' F2 F3) as (y1 & y2 & Z1 & Z2 & Z3).
  rewrite (core_energy_one _ _ _ _ _ _ Z1 X1), (core_energy_one _ _ _ _ _ _ Z2 X2) in Z3. rewrite Y1, Y2 in Z3. exact Z3.
Qed.

(* ---- concrete memories ---- *)

Lemma ex_dspec_sane s : sane (dp_ce (ex_dspec s)).
Proof.
  constructor; [decide_q|decide_q|split; decide_q|]. intros w [<-|[]]. exists (bg (dp_ce (ex_dspec s)) ex_vdd2h). split; [apply bg_exists, ex_energy_formed|].
  destruct s; (constructor; [decide_q|decide_q|decide_q|decide_q|split; decide_q|split; [|split; [|split]]; decide_q|split; decide_q|decide_q|decide_q]).
Qed.
Lemma ex_draws s w : In w (es_domains (dp_ce (ex_dspec s))) -> always_draws (dp_ce (ex_dspec s)) w (1#2000) /\ never_exceeds (dp_ce (ex_dspec s)) w (bg (dp_ce (ex_dspec s)) w) (1#20).
Proof. intros [<-|[]]. split; [|split; [decide_q|]; split; [decide_q|]; split; [decide_q|]; split; [decide_q|]; split; [intros _; decide_q|destruct s; decide_q]].
  split; [decide_q|]. split; [decide_q|]. split; [decide_q|]. split; [decide_q|intros _; decide_q]. Qed.
Lemma day_split s : (final_time 0 (map cmd_ts (firstn 3 (day_commands s))) <= 100)%N /\ forall c, In c (skipn 3 (day_commands s)) -> (100 <= cmd_ts c)%N.
Proof. split; [destruct s; vm_compute; discriminate|]. intros c H. destruct s; cbn in H; repeat (destruct H as [<-|H]; [vm_compute; discriminate|]); contradiction. Qed.
