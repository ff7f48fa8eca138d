(* C51 in the form in which PropCharge.v states it, and its examples. *)
From Coq Require Import ZArith QArith NArith List Bool Lia ZifyBool ZifyNat ZifyN.
From Verif Require Import Base Command CoreModel HistorySpec DeviceSpec RefineMain DeviceFacts DeviceTop ExampleCores.
From Verif Require Import Bits StatsModel EnergyModel EnergySpec EnergyProofs EnergyMore EnergyExamples IfEnergyModel InterfaceModel InterfaceSpec DramModel DramSpec DramProofs DramExamples InterfaceRefuted
  ProgressSpec ProgressProofs ProgressTop ProgressExamples ProgressQuery ChargeSpec ChargeBase ChargeProofs.
Import ListNotations.
Local Open Scope Q_scope.

(* The energy the charges of all devices amount to. *)
Definition energy_of (p : memspec) (e : espec) (I : power -> Q -> Q) (cs : list Command) (t : N) : Q :=
  qsum (fun w => qsum (fun r => qnat (es_devices e) * (pw_v w * charge p e w (I w) r cs t)) (seq 0 (ms_ranks p))) (es_domains e).

Lemma precharges p cs t r b : DeviceSpec.well_formed p -> timely p cs t -> legal_history p cs -> (r < ms_ranks p)%nat -> (b < ms_banks p)%nat ->
  exists d sb, device_at p r cs t = Some d /\ nth_error (dv_banks d) b = Some sb /\
    bank_counter p cs t r b K_pre = Some (counted_in p K_act r b cs - (if row_open sb then 1 else 0))%N /\
    (row_open sb = true -> 0 < counted_in p K_act r b cs)%N.
Proof.
  intros W T L Hr Hb. destruct (legal_history_accepted p cs t W T L) as [s H]. destruct L as [L1 L2].
  destruct (sw_bank _ _ _ _ _ (legal_shows p r cs t s W T Hr (L2 r Hr) H) b Hb) as (st & d & sb & A1 & A2 & A3 & A4 & A5 & A6).
  exists d, sb. split; [exact A4|]. split; [exact A5|]. unfold bank_counter. rewrite H, A1. cbn [option_map cs_get].
  specialize (A3 K_act ltac:(discriminate)). cbn [cs_get] in A3. destruct (row_open sb); (split; [f_equal; lia|]); [lia|discriminate].
Qed.

Lemma open_settle n m l : (n <= m)%N -> (length (filter row_open (map (settle_bank m) l)) <= length (filter row_open (map (settle_bank n) l)))%nat.
Proof.
  intros L. induction l as [|x l IH]; [apply Nat.le_refl|]. cbn [map filter].
  assert (row_open (settle_bank m x) = true -> row_open (settle_bank n x) = true) as H.
  { unfold row_open, settle_bank. destruct (sb_state x) eqn:E; cbn; rewrite ?E; auto.
    all: repeat match goal with |- context [(?a <=? ?b)%N] => destruct (N.leb_spec a b) end; cbn; rewrite ?E; auto; lia. }
  destruct (row_open (settle_bank m x)); [rewrite H by reflexivity|destruct (row_open (settle_bank n x))]; cbn [length]; lia.
Qed.
Lemma open_wake x l : length (filter row_open (map (wake_bank x) l)) = length (filter row_open l).
Proof.
  induction l as [|y l IH]; [reflexivity|]. cbn [map filter].
  replace (row_open (wake_bank x y)) with (row_open y); [destruct (row_open y); cbn [length]; lia|].
  unfold row_open, wake_bank. destruct (sb_state y) eqn:E; cbn; rewrite ?E; reflexivity.
Qed.
Lemma open_now n d : open_rows (settle n d) = length (filter row_open (map (settle_bank n) (dv_banks d))).
Proof.
  unfold open_rows, settle. destruct (dv_pend d) as [[x m]|]; [destruct (x <=? n)%N|]; cbn [dv_banks]; try reflexivity.
  destruct (dv_mode d); rewrite ?open_wake; reflexivity.
Qed.
Lemma open_later n m d : (n <= m)%N -> (open_rows (settle m d) <= open_rows (settle n d))%nat.
Proof. intros H. rewrite !open_now. now apply open_settle. Qed.

(* One more cycle without commands. *)
Lemma charge_step p e w I r cs t : DeviceSpec.well_formed p -> timely p cs t -> (t + 1 < two64)%N -> legal p r cs ->
  exists d d', device_at p r cs t = Some d /\ device_at p r cs (t + 1) = Some d' /\ (open_rows d' <= open_rows d)%nat /\
    charge p e w I r cs (t + 1) == charge p e w I r cs t + standby w I d * es_tCK e + qnat (open_rows d - open_rows d') * closing_charge e w.
Proof.
  intros W T Ht L. pose proof (timely_next p cs t T Ht) as T'.
  destruct (device_at_ok p r cs t t W T L (N.le_refl t)) as (d & _ & D & _ & _).
  destruct (device_at_ok p r cs (t + 1) (t + 1) W T' L (N.le_refl _)) as (d' & _ & D' & _ & _).
  exists d, d'. split; [exact D|]. split; [exact D'|].
  assert (open_rows d' <= open_rows d)%nat as O.
  { pose proof T as [T1 [_ [T3 _]]].
    assert (forall n, (t <= n)%N -> filter (fun c => to_rank r c && (cmd_ts c <=? n)%N) cs = filter (to_rank r) cs) as F.
    { intros n Hn. apply filter_ext_in. intros c Hc. pose proof (proj2 (proj2 (nondecreasing_ge cs 0 T1) c Hc)). destruct (N.leb_spec (cmd_ts c) n); [apply andb_true_r|lia]. }
    unfold device_at in D, D'. rewrite F in D by lia. rewrite F in D' by lia.
    destruct (run_device p (filter (to_rank r) cs) (device_new p)) as [d0|]; [|discriminate]. cbn [option_map] in D, D'. injection D as <-. injection D' as <-.
    apply open_later. lia. }
  split; [exact O|]. unfold charge. rewrite D, D'. unfold over_cycles. rewrite N2Nat.inj_add. change (N.to_nat 1) with 1%nat. rewrite Nat.add_1_r, qsum_seq_S.
  rewrite N2Nat.id, D. assert (qnat (open_rows d) == qnat (open_rows d - open_rows d') + qnat (open_rows d')) as E by (rewrite <- qnat_add; now rewrite Nat.sub_add).
  rewrite E. ring.
Qed.

(* An object. *)
Lemma object_energy p I us t d0 d d' st : views_agree p -> (ms_std (dp_core p) = DDR5 -> es_groups (dp_ce p) = ms_groups (dp_core p)) ->
  DeviceSpec.well_formed (dp_core p) -> EnergySpec.well_formed (dp_ce p) -> backgrounds (dp_ce p) I ->
  dram_new p = Value d0 -> uses_run p us d0 = Returned d ->
  nondecreasing 0 (map op_time (core_ops us)) -> (final_time 0 (map op_time (core_ops us)) <= t)%N ->
  let cs := HistorySpec.commands (core_ops us) in
  timely (dp_core p) cs t -> legal_history (dp_core p) cs -> dram_window p t d = Returned (d', st) ->
  exists en, calc_core_stats p st = Exactly en /\ en_total en == energy_of (dp_core p) (dp_ce p) I cs t.
Proof.
  intros V G Wp We B D0 U N F cs T L H.
  destruct (statistics_split p us t d0 d d' st V D0 U N F H) as (s & i0 & i & si & R & _ & _ & _ & Z). cbv zeta in Z.
  destruct Z as (_ & _ & _ & _ & E & _). rewrite E. apply core_energy_charge; auto.
  destruct V as [V1 V2 V3 [V4 V5] V6]. constructor; auto.
Qed.

Lemma ends_later l t : forall from, nondecreasing from l -> (final_time from l <= t)%N -> nondecreasing from (l ++ [t]).
Proof. induction l as [|x l IH]; intros from H F; cbn in *; [auto|]. destruct H. split; auto. Qed.
Lemma ends_at l t : forall from, (final_time from (l ++ [t]) <= t)%N.
Proof. intros from. unfold final_time. rewrite fold_left_app. cbn. lia. Qed.
Lemma uses_app p a b : forall d, uses_run p (a ++ b) d = match uses_run p a d with Returned d1 => uses_run p b d1 | x => x end.
Proof. induction a as [|u a IH]; intros d; [reflexivity|]. cbn [app uses_run]. destruct (use_do p u d); auto. Qed.

Lemma whole_run p I us t d0 : views_agree p -> (ms_std (dp_core p) = DDR5 -> es_groups (dp_ce p) = ms_groups (dp_core p)) ->
  EnergySpec.well_formed (dp_ce p) -> backgrounds (dp_ce p) I -> dram_new p = Value d0 -> Forall command_or_query us ->
  nondecreasing 0 (map op_time (core_ops us)) -> (final_time 0 (map op_time (core_ops us)) <= t)%N -> (t * ca_beats (fi_std (dp_if p)) + 64 < two64)%N -> (t * fi_rate (dp_if p) < two64)%N ->
  InterfaceSpec.sizes_ok (dp_if p) -> (fi_std (dp_if p) = LPDDR6 -> fi_groups (dp_if p) = 4%N) ->
  let cs := HistorySpec.commands (core_ops us) in
  DeviceSpec.well_formed (dp_core p) -> timely (dp_core p) cs t -> legal_history (dp_core p) cs -> trace_fits (dp_if p) (no_toggle (dp_sim p)) cs ->
  exists d d' en, uses_run p us d0 = Returned d /\ calc_core p t d = Returned (d', Exactly en) /\ en_total en == energy_of (dp_core p) (dp_ce p) I cs t.
Proof.
  intros V G We B D0 C N F H1 H2 S6 G6 cs Wp T L TF.
  destruct (object_goes p us d0 t D0 C N F H1 H2 S6 G6 Wp T L TF) as [d U].
  assert (exists dq, uses_run p (us ++ [Ask t]) d0 = Returned dq) as [dq Uq].
  { assert (core_ops (us ++ [Ask t]) = core_ops us ++ [Query t]) as CO by (unfold core_ops; rewrite flat_map_app; reflexivity).
    assert (HistorySpec.commands (core_ops (us ++ [Ask t])) = cs) as CC.
    { rewrite CO. unfold cs. generalize (core_ops us). induction l as [|[c|q] l IH]; cbn; [reflexivity|f_equal; exact IH|exact IH]. }
    apply (object_goes p (us ++ [Ask t]) d0 t D0); auto; rewrite ?CC; auto.
    - apply Forall_app. split; [exact C|repeat constructor].
    - rewrite CO, map_app. apply ends_later; auto.
    - rewrite CO, map_app. apply ends_at. }
  rewrite uses_app, U in Uq. cbn [uses_run use_do] in Uq. destruct (dram_window p t d) as [[d' st]| |] eqn:Hw; try discriminate.
  destruct (object_energy p I us t d0 d d' st V G Wp We B D0 U N F T L Hw) as (en & E1 & E2).
  exists d, d', en. split; [exact U|]. split; [|exact E2]. unfold calc_core. rewrite Hw, E1. reflexivity.
Qed.

Lemma backgrounds_exist e : EnergySpec.well_formed e -> exists I, backgrounds e I.
Proof. intros W. exists (bg e). intros w _. now apply bg_exists. Qed.

(* A rank that is left alone. *)
Lemma idle_charge p e w I r t : charge p e w I r [] t == pw_i2n w * cycles_time e t.
Proof.
  assert (forall n, device_at p r [] n = Some (device_new p)) as D.
  { intros n. unfold device_at. cbn [filter run_device option_map]. f_equal. unfold settle, device_new. cbn [dv_pend dv_banks dv_mode]. f_equal.
    rewrite <- (map_id (repeat _ _)) at 2. apply map_ext_in. intros x Hx. apply repeat_spec in Hx. subst x. reflexivity. }
  unfold charge. cbn [filter]. rewrite D.
  assert (filter busy (dv_banks (device_new p)) = [] /\ filter row_open (dv_banks (device_new p)) = []) as [B O].
  { unfold device_new. cbn [dv_banks]. generalize (ms_banks p). intros n. induction n; cbn; auto. }
  unfold open_rows. rewrite O. cbn [length]. rewrite qsum_nil.
  assert (over_cycles p r [] t (standby w I) == pw_i2n w * qn t) as ->.
  { unfold over_cycles. transitivity (qsum (fun _ : nat => pw_i2n w) (seq 0 (N.to_nat t))).
    - apply qsum_ext. intros x _. rewrite D. unfold standby, busy_banks. rewrite B. reflexivity.
    - rewrite <- (N2Nat.id t) at 2. generalize (N.to_nat t). intros n. induction n as [|n IH]; [cbn [seq]; rewrite qsum_nil; change (qn (N.of_nat 0)) with (0#1); ring|].
      rewrite qsum_seq_S, IH, !qn_nat, qnat_S. ring. }
  unfold cycles_time. change (qnat 0) with (0#1). ring.
Qed.

(* ---- examples ---- *)
Lemma ex_energy_formed s : EnergySpec.well_formed (dp_ce (ex_dspec s)).
Proof. split; try discriminate; destruct s; cbn; try exact I; try (split; [discriminate|]); try discriminate. Qed.
Lemma ex_same s : same_memory (dp_core (ex_dspec s)) (dp_ce (ex_dspec s)).
Proof. split; reflexivity. Qed.

(* ACT, a read, PRE and a later ACT that is still open at time 60. *)
Definition short_day : list Command :=
  [mkCommand 0 ACT 1 0 0 5 0 0 [] 0; mkCommand 12 RD 1 0 0 5 0 0 [] 0; mkCommand 25 PRE 1 0 0 0 0 0 [] 0; mkCommand 50 ACT 2 0 0 5 0 0 [] 0].
Definition ex_I (n : Q) : Q := (25#1000) + n * (5#1000).
Lemma short_day_charge :
  let e := dp_ce (ex_dspec DDR4) in let w := ex_vdd2h in
  Qeq_bool (charge (dp_core (ex_dspec DDR4)) e w ex_I 0 short_day 60)
    ((ex_I 1 * 35 + pw_i2n w * 25) * es_tCK e + 2 * (pw_i0 w * 30 - ex_I 1 * 20 - pw_i2n w * 10) * es_tCK e
     + (pw_i4r w - ex_I 16) * (qn (es_bl e) / qn (es_dr e)) * es_tCK e - (pw_ibeta w - pw_i2n w) * 10 * es_tCK e) = true.
Proof. vm_compute. reflexivity. Qed.
Lemma short_day_legal : timely (dp_core (ex_dspec DDR4)) short_day 60 /\ legal_history (dp_core (ex_dspec DDR4)) short_day.
Proof. split; [show_timely|show_legal]. Qed.
Lemma charge_case : Forall (fun s =>
  DeviceSpec.well_formed (dp_core (ex_dspec s)) /\ EnergySpec.well_formed (dp_ce (ex_dspec s)) /\ same_memory (dp_core (ex_dspec s)) (dp_ce (ex_dspec s)) /\
  (exists I, backgrounds (dp_ce (ex_dspec s)) I) /\ timely (dp_core (ex_dspec s)) (day_commands s) 1000 /\ legal_history (dp_core (ex_dspec s)) (day_commands s) /\
  exists x, run_core (dp_core (ex_dspec s)) (day_commands s) (core_new (dp_core (ex_dspec s))) = Ok x) five.
Proof.
  apply in_five. intros s. destruct (day_legal s) as (A & B & C). split; [exact A|]. split; [apply ex_energy_formed|]. split; [apply ex_same|].
  split; [apply backgrounds_exist, ex_energy_formed|]. split; [exact B|]. split; [exact C|]. exact (legal_history_accepted _ _ _ A B C).
Qed.
Lemma whole_case : Forall (fun s =>
  views_agree (ex_dspec s) /\ es_groups (dp_ce (ex_dspec s)) = ms_groups (dp_core (ex_dspec s)) /\ EnergySpec.well_formed (dp_ce (ex_dspec s)) /\
  (Forall command_or_query (full_day s) /\ nondecreasing 0 (map op_time (core_ops (full_day s))) /\ (final_time 0 (map op_time (core_ops (full_day s))) <= 1000)%N) /\
  (DeviceSpec.well_formed (dp_core (ex_dspec s)) /\ timely (dp_core (ex_dspec s)) (day_commands s) 1000 /\ legal_history (dp_core (ex_dspec s)) (day_commands s)) /\
  InterfaceSpec.sizes_ok (dp_if (ex_dspec s)) /\ trace_fits (dp_if (ex_dspec s)) true (day_commands s) /\
  match dram_new (ex_dspec s) with Value d0 => match uses_run (ex_dspec s) (full_day s) d0 with Returned _ => true | _ => false end | _ => false end = true) five.
Proof.
  apply in_five. intros s. split; [apply ex_views|]. split; [reflexivity|]. split; [apply ex_energy_formed|]. split; [apply day_uses|]. split; [apply day_legal|].
  split; [apply sizes|]. split; [apply day_fits|]. destruct s; vm_compute; reflexivity.
Qed.
