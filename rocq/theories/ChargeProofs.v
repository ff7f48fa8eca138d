(* The core energy of a legal history is the charge drawn times the voltage. *)
From Coq Require Import ZArith QArith NArith List Bool Lia ZifyBool ZifyNat ZifyN.
From Verif Require Import Base Command CoreModel ListFacts CoreBasics HistorySpec CoreHistory DeviceSpec RefineBase RefineRun RefineMain DeviceFacts.
From Verif Require Import Bits StatsModel StatsSpec StatsProofs EnergyModel EnergySpec EnergyProofs EnergyMore EnergyLoops DramModel ChargeSpec ChargeBase.
Import ListNotations.
Local Open Scope Q_scope.

Definition b2q (b : bool) : Q := if b then 1 else 0.

Lemma qn_nat n : qn (N.of_nat n) == qnat n.
Proof. unfold qn, qnat. now rewrite nat_N_Z. Qed.
Lemma qnat_add a b : qnat (a + b) == qnat a + qnat b.
Proof. unfold qnat. rewrite Nat2Z.inj_add, inject_Z_plus. reflexivity. Qed.
Lemma qn_count P n : qn (count_below P n) == qsum (fun i => b2q (P (N.of_nat i))) (seq 0 n).
Proof.
  induction n as [|n IH]; [reflexivity|]. rewrite qsum_seq_S. cbn [count_below]. rewrite qn_add, IH. unfold b2q.
  destruct (P (N.of_nat n)); reflexivity.
Qed.
Lemma qn_cycles p r cs t P : qn (cycles_where p r cs t P) == over_cycles p r cs t (fun d => b2q (P d)).
Proof.
  unfold cycles_where, over_cycles. rewrite qn_count. apply qsum_ext. intros n _. destruct (device_at p r cs (N.of_nat n)); reflexivity.
Qed.

(* Sums over the cycles. *)
Lemma over_ext p r cs t f g : (forall n d, (n < t)%N -> device_at p r cs n = Some d -> f d == g d) ->
  over_cycles p r cs t f == over_cycles p r cs t g.
Proof.
  intros H. apply qsum_ext. intros n Hn. apply in_seq in Hn. destruct (device_at p r cs (N.of_nat n)) eqn:E; [|reflexivity].
  apply (H (N.of_nat n)); [lia|exact E].
Qed.
Lemma over_plus p r cs t f g : over_cycles p r cs t (fun d => f d + g d) == over_cycles p r cs t f + over_cycles p r cs t g.
Proof.
  unfold over_cycles. rewrite <- qsum_plus. apply qsum_ext. intros n _. destruct (device_at p r cs (N.of_nat n)); ring.
Qed.
Lemma over_scale p r cs t k f : over_cycles p r cs t (fun d => k * f d) == k * over_cycles p r cs t f.
Proof.
  unfold over_cycles. rewrite <- qsum_scale. apply qsum_ext. intros n _. destruct (device_at p r cs (N.of_nat n)); ring.
Qed.
Lemma over_sum {A} p r cs t (f : A -> device -> Q) l : over_cycles p r cs t (fun d => qsum (fun x => f x d) l) == qsum (fun x => over_cycles p r cs t (f x)) l.
Proof.
  induction l as [|x l IH].
  - rewrite qsum_nil. unfold over_cycles. apply qsum_zero. intros n _. destruct (device_at p r cs (N.of_nat n)); reflexivity.
  - rewrite qsum_cons, <- IH, <- over_plus. apply over_ext. intros n d _ _. rewrite qsum_cons. reflexivity.
Qed.

(* Counting the members of a list by position. *)
Lemma count_nth {A} (f : A -> bool) (l : list A) :
  qsum (fun b => b2q (match nth_error l b with Some x => f x | None => false end)) (seq 0 (length l)) == qnat (length (filter f l)).
Proof.
  induction l as [|x l IH]; [reflexivity|]. cbn [length seq]. rewrite qsum_cons, <- seq_shift, qsum_map. cbn [nth_error filter].
  rewrite IH. unfold b2q at 1. destruct (f x); cbn [length]; rewrite ?qnat_S; ring.
Qed.

Lemma not_exists {A} (f : A -> bool) l : existsb f l = false -> filter f l = [].
Proof. induction l as [|x l IH]; cbn; auto. intros H. apply orb_false_iff in H as [-> H]. auto. Qed.
Lemma some_exists {A} (f : A -> bool) l : existsb f l = true -> length (filter f l) <> 0%nat.
Proof. induction l as [|x l IH]; cbn; [discriminate|]. destruct (f x); cbn; [discriminate|auto]. Qed.
Lemma closed_none bs : forallb is_closed bs = true -> existsb busy bs = false.
Proof.
  intros H. rewrite forallb_forall in H. destruct (existsb busy bs) eqn:E; [|reflexivity].
  apply existsb_exists in E as [x [Hx Hb]]. specialize (H x Hx). unfold is_closed in H. unfold busy in Hb. destruct (sb_state x); discriminate.
Qed.

(* The standby current by its parts. *)
Definition parts (w : power) (I : Q -> Q) (B : nat) (d : device) : Q :=
  pw_i2n w * b2q (rank_idles d) + I 0 * b2q (rank_acts d) + (I 1 - I 0) * qsum (fun b => b2q (bank_acts b d)) (seq 0 B)
  + pw_i3p w * b2q (mode_is ActPd d) + pw_i2p w * b2q (mode_is PrePd d) + pw_i6 w * b2q (mode_is SelfRef d) + pw_i6ds w * b2q (mode_is DeviceSpec.DeepSleep d).

Lemma bank_acts_sum d : qsum (fun b => b2q (bank_acts b d)) (seq 0 (length (dv_banks d))) == if mode_is ActPd d then 0 else qnat (busy_banks d).
Proof.
  rewrite (qsum_ext _ (fun b => b2q (match nth_error (dv_banks d) b with Some x => (fun y => busy y && negb (mode_is ActPd d)) x | None => false end))).
  - rewrite count_nth. unfold busy_banks. destruct (mode_is ActPd d).
    + rewrite filter_none; [reflexivity|]. intros x _. apply andb_false_r.
    + rewrite (filter_ext _ busy); [reflexivity|]. intros x. apply andb_true_r.
  - intros b _. unfold bank_acts. destruct (nth_error (dv_banks d) b); reflexivity.
Qed.

Lemma standby_parts w (I : Q -> Q) ps d B : (forall n, I n == I 0 + n * (I 1 - I 0)) -> dev_ok ps d -> length (dv_banks d) = B ->
  standby w I d == parts w I B d.
Proof.
  intros A O L. unfold parts. rewrite <- L, bank_acts_sum. unfold standby, rank_idles, rank_acts.
  pose proof (ok_mode_closed ps d O) as C. unfold mode_is in *. destruct (dv_mode d) eqn:M; cbn [smode_beq] in *; cbn [negb];
    rewrite ?andb_true_r, ?andb_false_r; cbn [b2q].
  - destruct (existsb busy (dv_banks d)) eqn:E; cbn [b2q negb].
    + pose proof (some_exists _ _ E) as Z. fold (busy_banks d) in Z. destruct (busy_banks d) as [|k]; [congruence|]. rewrite (A (qnat (S k))). ring.
    + unfold busy_banks. rewrite (not_exists _ _ E). cbn [length]. change (qnat 0) with 0. ring.
  - ring.
  - assert (existsb busy (dv_banks d) = false) as E by (apply closed_none, C; discriminate).
    unfold busy_banks. rewrite (not_exists _ _ E), E. cbn [length b2q negb]. change (qnat 0) with 0. ring.
  - assert (existsb busy (dv_banks d) = false) as E by (apply closed_none, C; discriminate).
    unfold busy_banks. rewrite (not_exists _ _ E), E. cbn [length b2q negb]. change (qnat 0) with 0. ring.
  - assert (existsb busy (dv_banks d) = false) as E by (apply closed_none, C; discriminate).
    unfold busy_banks. rewrite (not_exists _ _ E), E. cbn [length b2q negb]. change (qnat 0) with 0. ring.
Qed.

Lemma standby_total p r cs t w (I : Q -> Q) : DeviceSpec.well_formed p -> timely p cs t -> legal p r cs ->
  (forall n, I n == I 0 + n * (I 1 - I 0)) ->
  let count P := qn (cycles_where p r cs t P) in
  over_cycles p r cs t (standby w I) ==
  pw_i2n w * count rank_idles + I 0 * count rank_acts + (I 1 - I 0) * qsum (fun b => count (bank_acts b)) (seq 0 (ms_banks p))
  + pw_i3p w * count (mode_is ActPd) + pw_i2p w * count (mode_is PrePd) + pw_i6 w * count (mode_is SelfRef) + pw_i6ds w * count (mode_is DeviceSpec.DeepSleep).
Proof.
  intros W T L A count. rewrite (over_ext _ _ _ _ _ (parts w I (ms_banks p))).
  - unfold parts, count. rewrite !over_plus, !over_scale, over_sum, !qn_cycles.
    rewrite (qsum_ext (fun b => qn (cycles_where p r cs t (bank_acts b))) (fun b => over_cycles p r cs t (fun d => b2q (bank_acts b d)))) by (intros; apply qn_cycles).
    reflexivity.
  - intros n d Hn Hd. destruct (device_at_ok p r cs t n W T L ltac:(lia)) as [d' [ps [E [O Ln]]]]. rewrite E in Hd. injection Hd as <-.
    eapply standby_parts; eauto.
Qed.

(* ---- the commands ---- *)

Definition cmd_energy (p : memspec) (e : espec) (w : power) (c : Command) : Q :=
  let s k := qnat (spread p k c) in
  (coef e w CAct + coef e w CPre) * s K_act + coef e w CRd * s K_reads + coef e w CWr * s K_writes + coef e w CRda * s K_readAuto + coef e w CWra * s K_writeAuto
  + coef e w CRefAB * s K_refAllBank + coef e w CRefPB * s K_refPerBank + coef e w CRefSB * s K_refSameBank + coef e w CRef2B * s K_refPerTwoBanks + coef e w CRefDB * s K_refDualBanks.

Lemma burst_current e w (I : Q -> Q) : EnergySpec.well_formed e -> background e w I -> i_burst e w == I (qnat (banks_in_burst e)).
Proof.
  intros W B. destruct (background_currents e w I W B) as (_ & B1 & B2 & BB & _). unfold i_burst, banks_in_burst.
  destruct (es_std e); [exact BB|exact BB|exact B1| |exact B2]. destruct (es_mbg e); [exact B2|exact B1].
Qed.


Section Charges.
Context (e : espec) (w : power) (I : Q -> Q) (W : EnergySpec.well_formed e) (B : background e w I).

Lemma charge_act : coef e w CAct + coef e w CPre ==
  pw_v w * (pw_i0 w * (qn (es_tRAS e) * es_tCK e + qn (es_tRP e) * es_tCK e) - I 1 * (qn (es_tRAS e) * es_tCK e) - pw_i2n w * (qn (es_tRP e) * es_tCK e)).
Proof.
  destruct (background_currents e w I W B) as (_ & B1 & _). rewrite <- B1. cbn [coef]. unfold I_theta, t_ras, t_rp.
  pose proof (qn_nz _ (wf_tras e W)). pose proof (wf_tck e W). field. tauto.
Qed.
Lemma charge_rd : coef e w CRd == pw_v w * ((pw_i4r w - I (qnat (banks_in_burst e))) * read_time e).
Proof.
  rewrite <- (burst_current e w I W B). unfold coef, read_time, t_burst. destruct (es_std e); ring.
Qed.
Lemma charge_wr : coef e w CWr == pw_v w * ((pw_i4w w - I (qnat (banks_in_burst e))) * write_time e).
Proof.
  rewrite <- (burst_current e w I W B). unfold coef, write_time, t_burst. destruct (es_std e); ring.
Qed.
Lemma charge_ab : coef e w CRefAB * qB e == pw_v w * ((pw_i5 w - I (qB e)) * (qn (es_tRFC e) * es_tCK e)).
Proof.
  destruct (background_currents e w I W B) as (_ & _ & _ & BB & _). change (qnat (es_banks e)) with (qB e) in BB. rewrite <- BB.
  unfold coef, t_rfc. field. apply (qB_nz e W).
Qed.
Lemma charge_sb : es_std e = DDR5 -> coef e w CRefSB * qnat (es_groups e) == pw_v w * ((pw_i5s w - I (qnat (es_groups e))) * (qn (es_tRFCs e) * es_tCK e)).
Proof.
  intros E. destruct (background_currents e w I W B) as (_ & _ & _ & _ & BG). rewrite <- BG. unfold coef, t_rfcs. rewrite E. change (qnat (es_groups e)) with (qBG e).
  pose proof (wf_std e W) as X. rewrite E in X. field. now apply inject_nat_nz.
Qed.
Let small n := pw_v w * (pw_i5s w * (qn (es_tREFI e) * es_tCK e / 8) - pw_i2n w * (qn (es_tREFI e) * es_tCK e / 8 - qn (es_tRFCs e) * es_tCK e) - I n * (qn (es_tRFCs e) * es_tCK e)).
Lemma charge_pb : es_std e = LPDDR4 \/ es_std e = LPDDR5 -> coef e w CRefPB == small 1.
Proof.
  intros E. destruct (background_currents e w I W B) as (_ & B1 & _). unfold small. rewrite <- B1. unfold coef, IDD5_B, t_rfcs, t_refi.
  pose proof (wf_std e W) as X. pose proof (wf_tck e W). destruct E as [E|E]; rewrite E in *; destruct X as [X _]; apply qn_nz in X; field; tauto.
Qed.
Lemma charge_2b : es_std e = LPDDR5 -> coef e w CRef2B * 2 == small 2.
Proof.
  intros E. destruct (background_currents e w I W B) as (_ & _ & B2 & _). unfold small. rewrite <- B2. unfold coef, IDD5_B, t_rfcs, t_refi.
  pose proof (wf_std e W) as X. pose proof (wf_tck e W). rewrite E in *; destruct X as [X _]; apply qn_nz in X; field; tauto.
Qed.
Lemma charge_db : es_std e = LPDDR6 -> coef e w CRefDB * 2 == small 2.
Proof.
  intros E. destruct (background_currents e w I W B) as (_ & _ & B2 & _). unfold small. rewrite <- B2. unfold coef, IDD5_B, t_rfcs, t_refi.
  pose proof (wf_std e W) as X. pose proof (wf_tck e W). rewrite E in *; destruct X as [X _]; apply qn_nz in X; field; tauto.
Qed.
End Charges.

Lemma cmd_energy_charge p e w I c : DeviceSpec.well_formed p -> EnergySpec.well_formed e -> same_memory p e -> background e w I ->
  in_standard p (cmd_type c) && well_addressed p c = true -> cmd_energy p e w c == pw_v w * command_charge e w I c.
Proof.
  intros Wp We M B H. unfold cmd_energy. rewrite !(spread_value p _ c Wp H).
  apply andb_true_iff in H as [Hs _]. unfold in_standard in Hs. rewrite <- (sm_std p e M) in Hs.
  pose proof (sm_groups p e M) as SG. rewrite <- (sm_std p e M) in SG.
  assert (qnat (ms_banks p) = qB e) as QB by (unfold qB, qnat; now rewrite (sm_banks p e M)).
  unfold command_charge, cycles_time. change (qnat (es_banks e)) with (qB e).
  change (coef e w CRda) with (coef e w CRd). change (coef e w CWra) with (coef e w CWr).
  destruct (cmd_type c) eqn:E; cbn [spread_of]; change (qnat 0) with 0; change (qnat 1) with 1; change (qnat 2) with 2; rewrite ?QB; try ring;
    rewrite ?Qmult_0_r, ?Qplus_0_l, ?Qplus_0_r, ?Qmult_1_r.
  - now apply charge_rd.
  - now apply charge_wr.
  - now apply charge_rd.
  - now apply charge_wr.
  - now apply charge_act.
  - apply charge_pb; auto. destruct (es_std e); try discriminate; auto.
  - apply charge_2b; auto. destruct (es_std e); try discriminate; auto.
  - apply charge_db; auto. destruct (es_std e); try discriminate; auto.
  - assert (es_std e = DDR5) as E5 by (destruct (es_std e); try discriminate; auto). rewrite <- (SG E5). now apply charge_sb.
  - now apply charge_ab.
  - now apply charge_ab.
Qed.

(* ---- counters summed over the banks ---- *)

Lemma qnat_sum {A} (f : A -> nat) l : qnat (list_sum (map f l)) == qsum (fun x => qnat (f x)) l.
Proof. induction l as [|x l IH]; [reflexivity|]. cbn [map]. rewrite sum_cons, qnat_add, IH, qsum_cons. reflexivity. Qed.
Lemma counted_over_banks p k r cs :
  qsum (fun b => qn (counted_in p k r b cs)) (seq 0 (ms_banks p)) == qsum (fun c => qnat (spread p k c)) (filter (to_rank r) cs).
Proof.
  rewrite (qsum_ext _ (fun b => qsum (fun c => qnat (HistorySpec.counted p k c b)) (filter (to_rank r) cs))).
  - rewrite qsum_swap. apply qsum_ext. intros c _. unfold spread. rewrite qnat_sum. reflexivity.
  - intros b _. rewrite counted_in_sum. induction (filter (to_rank r) cs) as [|c l IH]; [reflexivity|].
    cbn [fold_right]. rewrite qn_add, qn_nat, IH, qsum_cons. reflexivity.
Qed.

(* What is known of the statistics of rank r. *)
Record shows (p : memspec) (r : nat) (cs : list Command) (t : N) (own : core_stats) : Prop := {
  sw_rank : shown_rank own r = Some (spec_rank p r cs t);
  sw_bank : forall b, (b < ms_banks p)%nat -> exists st d sb, shown_bank p own r b = Some st /\ bs_cycles st = spec_bank p r b cs t /\
    (forall k, k <> K_pre -> cs_get k (bs_counter st) = counted_in p k r b cs) /\
    device_at p r cs t = Some d /\ nth_error (dv_banks d) b = Some sb /\ (cs_act (bs_counter st) = cs_pre (bs_counter st) + (if row_open sb then 1 else 0))%N
}.
Lemma legal_shows p r cs t s : DeviceSpec.well_formed p -> timely p cs t -> (r < ms_ranks p)%nat -> legal p r cs ->
  run_core p cs (core_new p) = Ok s -> shows p r cs t (snd (window_stats p t s)).
Proof.
  intros W T Hr L H. destruct (stats_are_cycle_counts p cs s r t W T Hr L H) as [S1 S2]. split; [exact S1|].
  intros b Hb. destruct (rows_closed p r cs s t b W T Hr Hb L H) as (st & d & sb & A1 & A2 & A3 & A4).
  exists st, d, sb. split; [exact A1|]. split; [|split; [|auto]].
  - specialize (S2 b Hb). rewrite A1 in S2. cbn in S2. congruence.
  - intros k Hk. destruct (counters_equal_history p cs s t r b k Hk Hr Hb H) as (st' & E & C). rewrite A1 in E. injection E as <-. rewrite C.
    apply N.mod_small. apply counted_small; [apply (legal_checked p r cs L)|apply T].
Qed.

(* ---- the energy of one device of one rank in one domain ---- *)

Lemma device_length p r cs t d : device_at p r cs t = Some d -> length (dv_banks d) = ms_banks p.
Proof. rewrite device_at_dev. apply dev_len. Qed.

Lemma qsum_minus {A} (f g : A -> Q) l : qsum (fun x => f x - g x) l == qsum f l - qsum g l.
Proof. induction l as [|x l IH]; rewrite ?qsum_cons, ?qsum_nil; [ring|]. rewrite IH. ring. Qed.

Section Device.
Context (p : memspec) (e : espec) (w : power) (I : Q -> Q) (r : nat) (cs : list Command) (t : N) (own : core_stats).
Context (Wp : DeviceSpec.well_formed p) (We : EnergySpec.well_formed e) (M : same_memory p e) (B : background e w I)
        (T : timely p cs t) (L : legal p r cs) (S : shows p r cs t own).
Let st := fill_core own.
Let bank b := the_bank st (r * es_banks e + b).
Let total f := qsum (fun b => qn (f (bank b))) (seq 0 (es_banks e)).
Let per f := qsum f (filter (to_rank r) cs).

Lemma the_bank_shown b : (b < ms_banks p)%nat -> exists x, shown_bank p own r b = Some x /\ bank b = mkCS (bs_counter x) (bs_cycles x) pp_zero.
Proof.
  intros Hb. destruct (sw_bank _ _ _ _ _ S b Hb) as (x & _ & _ & E & _). exists x. split; [exact E|].
  unfold bank, the_bank, st. cbn [fill_core ss_bank]. rewrite (sm_banks p e M). unfold shown_bank in E.
  apply nth_error_nth. rewrite nth_error_map, E. reflexivity.
Qed.
Lemma the_rank_shown : the_rank st r = mkCS cs_zero (spec_rank p r cs t) pp_zero.
Proof.
  pose proof (sw_rank _ _ _ _ _ S) as E. unfold shown_rank in E. unfold the_rank, st. cbn [fill_core ss_rank].
  apply nth_error_nth. rewrite nth_error_map, E. reflexivity.
Qed.
Lemma total_counter k : k <> K_pre -> total (fun x => cs_get k (cs_counter x)) == per (fun c => qnat (spread p k c)).
Proof.
  intros Hk. unfold total, per. rewrite <- counted_over_banks. rewrite (sm_banks p e M). apply qsum_ext. intros b Hb. apply in_seq in Hb.
  destruct (the_bank_shown b ltac:(lia)) as (x & E & ->). cbn [cs_counter].
  destruct (sw_bank _ _ _ _ _ S b ltac:(lia)) as (x' & _ & _ & E' & _ & C & _). rewrite E in E'. injection E' as <-. rewrite (C k Hk). reflexivity.
Qed.
Lemma total_pre d : device_at p r cs t = Some d -> total (fun x => cs_pre (cs_counter x)) == per (fun c => qnat (spread p K_act c)) - qnat (open_rows d).
Proof.
  intros Hd. rewrite <- (total_counter K_act) by discriminate. unfold total, open_rows. rewrite <- count_nth, (device_length p r cs t d Hd).
  rewrite (sm_banks p e M), <- qsum_minus. apply qsum_ext. intros b Hb. apply in_seq in Hb.
  destruct (the_bank_shown b ltac:(lia)) as (x & E & ->). cbn [cs_counter cs_get].
  destruct (sw_bank _ _ _ _ _ S b ltac:(lia)) as (x' & d' & sb & E' & _ & _ & D & N & C). rewrite E in E'. injection E' as <-.
  rewrite Hd in D. injection D as <-. rewrite N, C, qn_add. unfold b2q. destruct (row_open sb); [change (qn 1) with 1|change (qn 0) with 0]; ring.
Qed.
Lemma total_active : total (fun x => cy_act (cs_cycles x)) == qsum (fun b => qn (cycles_where p r cs t (bank_acts b))) (seq 0 (ms_banks p)).
Proof.
  unfold total. rewrite (sm_banks p e M). apply qsum_ext. intros b Hb. apply in_seq in Hb.
  destruct (the_bank_shown b ltac:(lia)) as (x & E & ->). cbn [cs_cycles].
  destruct (sw_bank _ _ _ _ _ S b ltac:(lia)) as (x' & _ & _ & E' & Y & _). rewrite E in E'. injection E' as <-. rewrite Y. reflexivity.
Qed.

Lemma per_plus f g : per (fun c => f c + g c) == per f + per g.
Proof. apply qsum_plus. Qed.
Lemma per_scale k f : per (fun c => k * f c) == k * per f.
Proof. apply qsum_scale. Qed.

Lemma commands_energy : per (cmd_energy p e w) == pw_v w * per (command_charge e w I).
Proof.
  rewrite <- per_scale. apply qsum_ext. intros c Hc. apply cmd_energy_charge; auto.
  pose proof (legal_checked p r cs L) as F. rewrite Forall_forall in F. apply F, Hc.
Qed.

Lemma device_energy : 
  qsum (fun b => ei_total (bank_energy e w (bank b) (the_rank st r))) (seq 0 (es_banks e)) + dev_rank e w (the_rank st r)
  == pw_v w * charge p e w I r cs t.
Proof.
  destruct (device_at_ok p r cs t t Wp T L (N.le_refl t)) as (d & ps & Hd & _ & _).
  destruct (background_currents e w I We B) as (B0 & B1 & _).
  unfold charge. rewrite Hd. rewrite (standby_total p r cs t w I Wp T L (proj1 B)).
  rewrite (qsum_ext _ (fun b => qsum (fun c => coef e w c * qn (source c (bank b) (the_rank st r))) EnergySpec.counted)) by (intros; apply bank_total).
  rewrite (qsum_swap (fun b c => coef e w c * qn (source c (bank b) (the_rank st r)))).
  rewrite (qsum_ext _ (fun c => coef e w c * qsum (fun b => qn (source c (bank b) (the_rank st r))) (seq 0 (es_banks e)))) by (intros; apply qsum_scale).
  assert (forall k, k <> K_pre -> qsum (fun b => qn (cs_get k (cs_counter (bank b)))) (seq 0 (es_banks e)) == per (fun c => qnat (spread p k c))) as C by exact total_counter.
  pose proof (total_pre d Hd) as P. pose proof total_active as A. unfold total in P, A.
  unfold EnergySpec.counted. rewrite !qsum_cons, qsum_nil. cbn [source part_at].
  rewrite the_rank_shown. cbn [cs_cycles spec_rank].
  pose proof commands_energy as CE. unfold cmd_energy in CE. cbv zeta in CE. rewrite !per_plus, !per_scale in CE.
  rewrite (C K_act), (C K_reads), (C K_writes), (C K_readAuto), (C K_writeAuto), (C K_refAllBank), (C K_refPerBank), (C K_refSameBank), (C K_refPerTwoBanks), (C K_refDualBanks) by discriminate.
  change (fun b => qn (cs_get K_pre (cs_counter (bank b)))) with (fun b => qn (cs_pre (cs_counter (bank b)))). rewrite P.
  cbv zeta. rewrite A.
  rewrite qsum_const, seq_length. change (qnat (es_banks e)) with (qB e). fold (per (command_charge e w I)).
  assert (match es_std e with LPDDR5 | LPDDR6 => pw_i6ds w * qn (cycles_where p r cs t (mode_is DeviceSpec.DeepSleep)) | _ => 0 end
    == pw_i6ds w * qn (cycles_where p r cs t (mode_is DeviceSpec.DeepSleep))) as DS.
  { destruct (es_std e) eqn:E; try reflexivity; rewrite cycles_where_cw, no_dsm_count by (rewrite <- (sm_std p e M), E; discriminate); change (qn 0) with 0; ring. }
  unfold dev_rank. cbn [cs_cycles spec_rank cy_act cy_pre cy_pda cy_pdp cy_sref cy_dsm]. cbv zeta. rewrite DS.
  assert (coef e w CPre == pw_v w * closing_charge e w) as CP by (cbn [coef]; unfold closing_charge, cycles_time, t_rp; ring).
  assert (coef e w CBgPre * qB e == pw_v w * pw_i2n w * es_tCK e) as CB by (cbn [coef]; field; apply (qB_nz e We)).
  assert (coef e w CBgAct == pw_v w * (I 1 - I 0) * es_tCK e) as CA by (cbn [coef]; rewrite B0, B1; reflexivity).
  rewrite B0, CA.
  transitivity ((coef e w CBgPre * qB e) * qn (cycles_where p r cs t rank_idles) - coef e w CPre * qnat (open_rows d) + pw_v w * per (command_charge e w I)
    + pw_v w * es_tCK e * ((I 1 - I 0) * qsum (fun b => qn (cycles_where p r cs t (bank_acts b))) (seq 0 (ms_banks p))
      + I 0 * qn (cycles_where p r cs t rank_acts) + pw_i3p w * qn (cycles_where p r cs t (mode_is ActPd)) + pw_i2p w * qn (cycles_where p r cs t (mode_is PrePd))
      + pw_i6 w * qn (cycles_where p r cs t (mode_is SelfRef)) + pw_i6ds w * qn (cycles_where p r cs t (mode_is DeviceSpec.DeepSleep)))).
  - rewrite <- CE. ring.
  - rewrite CB, CP. ring.
Qed.
End Device.

(* ---- all ranks and domains ---- *)

Lemma window_lengths p cs t s : run_core p cs (core_new p) = Ok s ->
  length (st_rank (snd (window_stats p t s))) = ms_ranks p /\ length (st_bank (snd (window_stats p t s))) = (ms_ranks p * ms_banks p)%nat.
Proof.
  intros H. pose proof (run_core_sizes _ _ _ _ (core_new_sizes p) H) as Z. pose proof (process_sizes p t s Z) as [Z1 Z2].
  unfold window_stats; cbn [snd st_rank st_bank]. rewrite map_length. split; [exact Z1|]. rewrite <- Z1. clear Z1 Z H.
  induction Z2 as [|x l Hx _ IH]; [reflexivity|]. cbn [flat_map length]. rewrite app_length, IH, map_length. unfold nbk in Hx. lia.
Qed.

Theorem core_energy_charge p e I cs t s : DeviceSpec.well_formed p -> EnergySpec.well_formed e -> same_memory p e -> backgrounds e I ->
  timely p cs t -> legal_history p cs -> run_core p cs (core_new p) = Ok s ->
  exists en, calc_energy e (fill_core (snd (window_stats p t s))) = Exactly en /\
    en_total en == qsum (fun w => qsum (fun r => qnat (es_devices e) * (pw_v w * charge p e w (I w) r cs t)) (seq 0 (ms_ranks p))) (es_domains e).
Proof.
  intros Wp We M B T [L1 L2] H. destruct (window_lengths p cs t s H) as [N1 N2].
  assert (covers e (fill_core (snd (window_stats p t s)))) as CV.
  { split; cbn [fill_core ss_bank ss_rank]; rewrite map_length, ?N1, ?N2, (sm_ranks p e M), ?(sm_banks p e M); lia. }
  destruct (calc_ok e _ (well_formed_usable e We) CV) as (en & E & K). exists en. split; [exact E|].
  rewrite (total_by_rank e _ en We K). rewrite (sm_ranks p e M). apply qsum_ext. intros w Hw. apply qsum_ext. intros r Hr. apply in_seq in Hr.
  rewrite (device_energy p e w (I w) r cs t (snd (window_stats p t s))); auto; [reflexivity|apply L2; lia|].
  apply legal_shows; auto; [lia|apply L2; lia].
Qed.
