(* The composition theorems in the form in which PropCompose.v states them. *)
From Coq Require Import ZArith QArith NArith List Bool Lia ZifyBool ZifyNat ZifyN Arith.
From Verif Require Import Base Command CoreModel ListFacts HistorySpec CoreHistory DeviceSpec RefineBase RefineMain DeviceFacts DeviceSleep DeviceTop ComposeSpec ComposeProofs ComposeTop.
From Verif Require Import Bits StatsModel EnergyModel EnergySpec EnergyProofs DramModel ChargeSpec ChargeBase ChargeProofs ChargeTop.
Import ListNotations.
Local Open Scope N_scope.

(* All counters of a bank. *)
Definition tally (p : memspec) (cs : list Command) (d : device) (r b : nat) (k : ckind) : N :=
  match k with
  | K_pre => counted_in p K_act r b cs - (match nth_error (dv_banks d) b with Some sb => if row_open sb then 1 else 0 | None => 0 end)
  | _ => counted_in p k r b cs
  end.
Lemma counter_tally p cs t r b k : DeviceSpec.well_formed p -> timely p cs t -> legal_history p cs -> (r < ms_ranks p)%nat -> (b < ms_banks p)%nat ->
  exists d, device_at p r cs t = Some d /\ bank_counter p cs t r b k = Some (tally p cs d r b k) /\
    (forall sb, nth_error (dv_banks d) b = Some sb -> row_open sb = true -> 0 < counted_in p K_act r b cs).
Proof.
  intros W T L Hr Hb. destruct (legal_history_accepted p cs t W T L) as [s H]. pose proof L as [L1 L2].
  destruct (sw_bank _ _ _ _ _ (legal_shows p r cs t s W T Hr (L2 r Hr) H) b Hb) as (st & d & sb & A1 & A2 & A3 & A4 & A5 & A6).
  exists d. split; [exact A4|]. pose proof (A3 K_act ltac:(discriminate)) as Z. cbn [cs_get] in Z. split.
  - unfold bank_counter. rewrite H, A1. cbn [option_map]. unfold tally. destruct k; try (rewrite A3 by discriminate; reflexivity).
    rewrite A5. cbn [cs_get]. f_equal. destruct (row_open sb); lia.
  - intros sb' E O. rewrite A5 in E. injection E as <-. rewrite O in A6. lia.
Qed.
Lemma counted_in_app p k r b x y : counted_in p k r b (x ++ y) = counted_in p k r b x + counted_in p k r b y.
Proof. induction x as [|c x IH]; [reflexivity|]. cbn [counted_in app fold_right]. fold (counted_in p k r b (x ++ y)) (counted_in p k r b x). rewrite IH. destruct (_ =? r)%nat; lia. Qed.
Lemma counted_in_later p k r b T x : counted_in p k r b (later T x) = counted_in p k r b x.
Proof.
  induction x as [|c x IH]; [reflexivity|]. cbn [later map counted_in fold_right]. fold (later T x). fold (counted_in p k r b (later T x)) (counted_in p k r b x). rewrite IH. reflexivity.
Qed.
Lemma nth_rest p T d b sb : at_rest p T d -> nth_error (dv_banks d) b = Some sb -> row_open sb = false.
Proof. intros (_ & _ & B) H. rewrite Forall_forall in B. destruct (B sb (nth_error_In _ _ H)) as (E & _). unfold row_open. now rewrite E. Qed.

Section Main.
Variable p : memspec.
Variables cs1 cs2 : list Command.
Variables T t : N.
Hypothesis W : DeviceSpec.well_formed p.
Hypothesis L1 : legal_history p cs1.
Hypothesis L2 : legal_history p cs2.
Hypothesis RE : rests p cs1 T.
Hypothesis T2 : timely p cs2 t.
Hypothesis TB : timely p (cs1 ++ later T cs2) (T + t).
Let both := cs1 ++ later T cs2.

Lemma timely_first : timely p cs1 T.
Proof using RE TB. destruct RE as (_ & F & _). eapply timely_prefix; [exact TB|exact F|lia]. Qed.
Lemma nd2 : nondecreasing 0 (map cmd_ts cs2). Proof using T2. apply T2. Qed.
Theorem sequence_legal : legal_history p both.
Proof using L1 L2 RE T2. apply both_legal; auto. exact nd2. Qed.
Theorem sequence_rank r : (r < ms_ranks p)%nat ->
  exists v1 v2, rank_view p cs1 T r = Some v1 /\ rank_view p cs2 t r = Some v2 /\ rank_view p both (T + t) r = Some (cycles_sum v1 v2).
Proof using W L1 L2 RE T2 TB.
  intros Hr. exists (spec_rank p r cs1 T), (spec_rank p r cs2 t).
  rewrite !rank_view_spec; auto using sequence_legal, timely_first. split; [reflexivity|]. split; [reflexivity|]. f_equal. apply spec_rank_both; auto. exact nd2.
Qed.
Theorem sequence_bank r b : (r < ms_ranks p)%nat -> (b < ms_banks p)%nat ->
  exists v1 v2, bank_view p cs1 T r b = Some v1 /\ bank_view p cs2 t r b = Some v2 /\ bank_view p both (T + t) r b = Some (cycles_sum v1 v2).
Proof using W L1 L2 RE T2 TB.
  intros Hr Hb. exists (spec_bank p r b cs1 T), (spec_bank p r b cs2 t).
  rewrite !bank_view_spec; auto using sequence_legal, timely_first. split; [reflexivity|]. split; [reflexivity|]. f_equal. apply spec_bank_both; auto. exact nd2.
Qed.
Theorem sequence_counter r b k : (r < ms_ranks p)%nat -> (b < ms_banks p)%nat ->
  exists n1 n2, bank_counter p cs1 T r b k = Some n1 /\ bank_counter p cs2 t r b k = Some n2 /\ bank_counter p both (T + t) r b k = Some (n1 + n2).
Proof using W L1 L2 RE T2 TB.
  intros Hr Hb. destruct (counter_tally p cs1 T r b k W timely_first L1 Hr Hb) as (d1 & D1 & C1 & O1).
  destruct (counter_tally p cs2 t r b k W T2 L2 Hr Hb) as (d2 & D2 & C2 & O2).
  destruct (counter_tally p both (T + t) r b k W TB sequence_legal Hr Hb) as (d & D & C & O).
  rewrite C1, C2, C. eexists; eexists. split; [reflexivity|]. split; [reflexivity|]. f_equal.
  assert (A : forall k, counted_in p k r b both = counted_in p k r b cs1 + counted_in p k r b cs2) by (intros k'; unfold both; rewrite counted_in_app, counted_in_later; reflexivity).
  unfold tally. destruct k; try apply A. rewrite A.
  destruct (proj2 (proj2 RE) r Hr) as (d1' & D1' & R1). rewrite D1 in D1'. injection D1' as <-.
  pose proof (after_rest p cs1 cs2 T RE nd2 r t Hr) as Z. rewrite D2 in Z. destruct Z as (d' & Z1 & Z2). rewrite (N.add_comm t T) in Z1. fold both in Z1. rewrite D in Z1. injection Z1 as <-.
  pose proof (nth_sim _ _ _ (ds_banks _ _ _ _ _ Z2) b) as N.
  destruct (nth_error (dv_banks d1) b) as [s1|] eqn:E1; [rewrite (nth_rest p T d1 b s1 R1 E1)|];
    (destruct (nth_error (dv_banks d) b) as [s|]; destruct (nth_error (dv_banks d2) b) as [s2|]; try contradiction; [|lia];
     assert (E : row_open s = row_open s2) by (unfold row_open; rewrite (bs_state _ _ _ _ _ N); now destruct (sb_state s2)); rewrite E;
     specialize (O2 s2 eq_refl); destruct (row_open s2); lia).
Qed.
Theorem sequence_energy e : EnergySpec.well_formed e -> same_memory p e ->
  exists s1 s2 s en1 en2 en, run_core p cs1 (core_new p) = Ok s1 /\ run_core p cs2 (core_new p) = Ok s2 /\ run_core p both (core_new p) = Ok s /\
    calc_energy e (fill_core (snd (window_stats p T s1))) = Exactly en1 /\ calc_energy e (fill_core (snd (window_stats p t s2))) = Exactly en2 /\
    calc_energy e (fill_core (snd (window_stats p (T + t) s))) = Exactly en /\ (en_total en == en_total en1 + en_total en2)%Q.
Proof using W L1 L2 RE T2 TB.
  intros WE SM. destruct (backgrounds_exist e WE) as [I B].
  destruct (legal_history_accepted p cs1 T W timely_first L1) as [s1 S1]. destruct (legal_history_accepted p cs2 t W T2 L2) as [s2 S2].
  destruct (legal_history_accepted p both (T + t) W TB sequence_legal) as [s S]. exists s1, s2, s.
  destruct (core_energy_charge p e I cs1 T s1 W WE SM B timely_first L1 S1) as (en1 & E1 & C1).
  destruct (core_energy_charge p e I cs2 t s2 W WE SM B T2 L2 S2) as (en2 & E2 & C2).
  destruct (core_energy_charge p e I both (T + t) s W WE SM B TB sequence_legal S) as (en & E & C).
  exists en1, en2, en. repeat (split; [assumption|]). rewrite C, C1, C2, <- qsum_plus. apply qsum_ext. intros w _. rewrite <- qsum_plus. apply qsum_ext. intros r Hr. apply in_seq in Hr.
  unfold both. rewrite (charge_both p cs1 cs2 T RE nd2 e w (I w) r t); [ring|lia|apply L2; lia|apply T2].
Qed.
End Main.

(* Nothing before: the trace is delayed. *)
Lemma rest_new p T : rests p [] T.
Proof.
  split; [exact Logic.I|]. split; [apply N.le_0_l|]. intros r Hr. eexists. split; [reflexivity|]. split; [reflexivity|]. split; [reflexivity|].
  cbn. generalize (ms_banks p). intros n. induction n as [|n IH]; cbn; constructor; auto. split; [reflexivity|]. split; [|split]; intros; discriminate.
Qed.
Lemma legal_nil p : legal_history p [].
Proof. split; [constructor|]. intros r _. discriminate. Qed.
Theorem delayed p cs T t : DeviceSpec.well_formed p -> legal_history p cs -> timely p cs t -> timely p (later T cs) (T + t) ->
  legal_history p (later T cs) /\
  (forall r, (r < ms_ranks p)%nat -> exists v, rank_view p cs t r = Some v /\ rank_view p (later T cs) (T + t) r = Some (cycles_sum (mkCycles 0 T 0 0 0 0) v)) /\
  (forall r b, (r < ms_ranks p)%nat -> (b < ms_banks p)%nat ->
     (exists v, bank_view p cs t r b = Some v /\ bank_view p (later T cs) (T + t) r b = Some (cycles_sum (mkCycles 0 T 0 0 0 0) v)) /\
     forall k, bank_counter p (later T cs) (T + t) r b k = bank_counter p cs t r b k).
Proof.
  intros W L Ht HT. pose proof (rest_new p T) as RE. pose proof (legal_nil p) as LN.
  assert (TN : timely p [] T) by (eapply (timely_prefix p [] (later T cs)); [exact HT|apply N.le_0_l|lia]).
  split; [apply (sequence_legal p [] cs T t); auto|]. split.
  - intros r Hr. destruct (sequence_rank p [] cs T t W LN L RE Ht HT r Hr) as (v1 & v2 & A & B & C). exists v2. split; [exact B|].
    cbn [app] in C. rewrite C. do 2 f_equal. rewrite rank_view_spec in A by auto. injection A as <-. unfold spec_rank.
    assert (forall P, cycles_where p r [] T P = if P (device_new p) then T else 0) as K.
    { intros P. unfold cycles_where. assert (forall n, device_at p r [] n = Some (device_new p)) as D.
      { intros n. unfold device_at. cbn. unfold settle, device_new. cbn [dv_banks dv_pend dv_mode]. do 2 f_equal. clear. induction (ms_banks p); cbn; congruence. }
      destruct (P (device_new p)) eqn:E; [rewrite (count_below_ext _ (fun _ => true)); [rewrite count_true; lia|]|rewrite (count_below_ext _ (fun _ => false)); [clear; induction (N.to_nat T); cbn; lia|]];
        intros m _; rewrite D; exact E. }
    rewrite !K. assert (existsb busy (dv_banks (device_new p)) = false) as N by (cbn; clear; induction (ms_banks p); cbn; auto).
    unfold rank_acts, rank_idles. rewrite N. reflexivity.
  - intros r b Hr Hb. split.
    + destruct (sequence_bank p [] cs T t W LN L RE Ht HT r b Hr Hb) as (v1 & v2 & A & B & C). exists v2. split; [exact B|].
      cbn [app] in C. rewrite C. do 2 f_equal. rewrite bank_view_spec in A by auto. injection A as <-. unfold spec_bank.
      assert (forall P, cycles_where p r [] T P = if P (device_new p) then T else 0) as K.
      { intros P. unfold cycles_where. assert (forall n, device_at p r [] n = Some (device_new p)) as D.
        { intros n. unfold device_at. cbn. unfold settle, device_new. cbn [dv_banks dv_pend dv_mode]. do 2 f_equal. clear. induction (ms_banks p); cbn; congruence. }
        destruct (P (device_new p)) eqn:E; [rewrite (count_below_ext _ (fun _ => true)); [rewrite count_true; lia|]|rewrite (count_below_ext _ (fun _ => false)); [clear; induction (N.to_nat T); cbn; lia|]];
          intros m _; rewrite D; exact E. }
      rewrite !K. unfold bank_acts, bank_idles. cbn [device_new dv_banks].
      assert (nth_error (repeat (mkSb Closed None None None) (ms_banks p)) b = Some (mkSb Closed None None None)) as ->; [|reflexivity].
      { rewrite (nth_error_nth' _ (mkSb Closed None None None)) by (rewrite repeat_length; exact Hb). f_equal. apply nth_repeat. }
    + intros k. destruct (sequence_counter p [] cs T t W LN L RE Ht HT r b k Hr Hb) as (n1 & n2 & A & B & C). cbn [app] in C. rewrite B, C. f_equal.
      destruct (counter_tally p [] T r b k W TN LN Hr Hb) as (d & _ & C' & _). rewrite A in C'. injection C' as ->.
      assert (tally p [] d r b k = 0) as -> by (unfold tally; destruct k; reflexivity). lia.
Qed.
Theorem delayed_energy p e I cs T t : DeviceSpec.well_formed p -> EnergySpec.well_formed e -> same_memory p e -> backgrounds e I -> legal_history p cs -> timely p cs t -> timely p (later T cs) (T + t) ->
  exists s s' en en', run_core p cs (core_new p) = Ok s /\ run_core p (later T cs) (core_new p) = Ok s' /\
    calc_energy e (fill_core (snd (window_stats p t s))) = Exactly en /\ calc_energy e (fill_core (snd (window_stats p (T + t) s'))) = Exactly en' /\
    (en_total en' == en_total en + qnat (ms_ranks p) * qnat (es_devices e) * qsum (fun w => pw_v w * pw_i2n w) (es_domains e) * (qn T * es_tCK e))%Q.
Proof.
  intros W WE SM B L Ht HT. pose proof (rest_new p T) as RE. pose proof (legal_nil p) as LN.
  assert (TN : timely p [] T) by (eapply (timely_prefix p [] (later T cs)); [exact HT|apply N.le_0_l|lia]).
  destruct (sequence_energy p [] cs T t W LN L RE Ht HT e WE SM) as (s1 & s2 & s & en1 & en2 & en & S1 & S2 & S3 & E1 & E2 & E3 & A).
  exists s2, s, en2, en. repeat (split; [assumption|]). rewrite A.
  destruct (core_energy_charge p e I [] T s1 W WE SM B TN LN S1) as (en1' & E1' & C). rewrite E1 in E1'. injection E1' as <-. rewrite C.
  rewrite (qsum_ext _ (fun w => qnat (ms_ranks p) * (qnat (es_devices e) * (qn T * es_tCK e)) * (pw_v w * pw_i2n w))%Q).
  2: { intros w _. rewrite (qsum_ext _ (fun _ => qnat (es_devices e) * (pw_v w * (pw_i2n w * (qn T * es_tCK e))))%Q).
       - rewrite qsum_const, seq_length. ring.
       - intros r _. rewrite idle_charge. unfold cycles_time. reflexivity. }
  rewrite qsum_scale. ring.
Qed.

(* The trace n times. *)
Lemma later_app T a b : later T (a ++ b) = later T a ++ later T b. Proof. apply map_app. Qed.
Lemma loop_rests p cs T n : rests p cs T -> (0 < n)%nat -> rests p (looped T cs n) (N.of_nat n * T).
Proof.
  intros R. induction n as [|n IH]; intros Hn; [lia|]. cbn [looped]. destruct n as [|n].
  - cbn [looped later map]. rewrite app_nil_r. replace (N.of_nat 1 * T) with T by lia. exact R.
  - replace (N.of_nat (S (S n)) * T) with (T + N.of_nat (S n) * T) by lia. specialize (IH ltac:(lia)). apply both_rests; [exact R|apply IH|exact IH].
Qed.
Lemma later_nondecreasing T l : forall a, nondecreasing (a + T) (map cmd_ts (later T l)) -> nondecreasing a (map cmd_ts l).
Proof.
  induction l as [|c l IH]; intros a H; cbn; [exact Logic.I|]. cbn in H. destruct H as [H1 H2]. split; [lia|]. apply IH. exact H2.
Qed.
Lemma loop_ordered p cs T n : rests p cs T -> nondecreasing 0 (map cmd_ts (looped T cs n)).
Proof.
  intros R. destruct n as [|n]; [exact Logic.I|]. apply (loop_rests p cs T (S n) R). lia.
Qed.
Lemma loop_ends p cs T n : rests p cs T -> final_time 0 (map cmd_ts (looped T cs n)) <= N.of_nat n * T.
Proof. intros R. destruct n as [|n]; [apply N.le_0_l|]. apply (loop_rests p cs T (S n) R). lia. Qed.
Lemma timely_tail p a T cs t : timely p (a ++ later T cs) (T + t) -> nondecreasing 0 (map cmd_ts cs) -> final_time 0 (map cmd_ts cs) <= t -> timely p cs t.
Proof.
  intros (H1 & H2 & H3 & H4 & H5) N F. split; [exact N|]. split; [|split; [exact F|split; [lia|]]].
  - unfold no_overflow in *. rewrite map_app in H2. apply Forall_app in H2 as [_ H2]. rewrite Forall_forall in *. intros x Hx. apply in_map_iff in Hx as (c & <- & Hc).
    specialize (H2 (cmd_ts c + T)). assert (cmd_ts c + T + tmax p < two64); [|lia]. apply H2. apply in_map_iff. exists (delay T c). split; [reflexivity|]. now apply in_map.
  - rewrite app_length in H5. unfold later in H5. rewrite map_length in H5. lia.
Qed.
Theorem loop_energy p cs T e : DeviceSpec.well_formed p -> EnergySpec.well_formed e -> same_memory p e -> legal_history p cs -> rests p cs T ->
  forall n, timely p (looped T cs n) (N.of_nat n * T) ->
  legal_history p (looped T cs n) /\
  exists s en, run_core p (looped T cs n) (core_new p) = Ok s /\ calc_energy e (fill_core (snd (window_stats p (N.of_nat n * T) s))) = Exactly en /\
    (n = 0%nat -> en_total en == 0)%Q /\
    (forall s1 en1, run_core p cs (core_new p) = Ok s1 -> calc_energy e (fill_core (snd (window_stats p T s1))) = Exactly en1 -> en_total en == qnat n * en_total en1)%Q.
Proof.
  intros W WE SM L R n. destruct (backgrounds_exist e WE) as [I B]. induction n as [|n IH]; intros HT.
  - cbn [looped] in *. pose proof (legal_nil p) as LN. split; [exact LN|]. destruct (legal_history_accepted p [] _ W HT LN) as [s S].
    destruct (core_energy_charge p e I [] _ s W WE SM B HT LN S) as (en & E & C). exists s, en. split; [exact S|]. split; [exact E|].
    assert (Z : (en_total en == 0)%Q).
    { rewrite C. apply qsum_zero. intros w _. apply qsum_zero. intros r _. rewrite idle_charge. unfold cycles_time. change (qn (N.of_nat 0 * T)) with 0%Q. ring. }
    split; [intros _; exact Z|]. intros s1 en1 _ _. rewrite Z. change (qnat 0) with 0%Q. ring.
  - cbn [looped] in *. replace (N.of_nat (S n) * T) with (T + N.of_nat n * T) in * by lia.
    assert (TL : timely p (looped T cs n) (N.of_nat n * T)) by (eapply timely_tail; [exact HT|apply (loop_ordered p); exact R|apply (loop_ends p); exact R]).
    destruct (IH TL) as (LL & s' & en' & S' & E' & _ & C'). split; [apply (sequence_legal p cs (looped T cs n) T (N.of_nat n * T)); auto|].
    destruct (sequence_energy p cs (looped T cs n) T (N.of_nat n * T) W L LL R TL HT e WE SM) as (s1 & s2 & s & en1 & en2 & en & S1 & S2 & S3 & E1 & E2 & E3 & A).
    exists s, en. split; [exact S3|]. split; [exact E3|]. split; [discriminate|]. intros s1' en1' S1' E1'. rewrite S1 in S1'. injection S1' as <-. rewrite E1 in E1'. injection E1' as <-.
    rewrite S2 in S'. injection S' as <-. rewrite E2 in E'. injection E' as <-. rewrite A, (C' s1 en1 S1 E1), qnat_S. ring.
Qed.
Theorem loop_energies p cs T e n : DeviceSpec.well_formed p -> EnergySpec.well_formed e -> same_memory p e -> legal_history p cs -> rests p cs T ->
  timely p cs T -> timely p (looped T cs n) (N.of_nat n * T) ->
  legal_history p (looped T cs n) /\
  exists s1 s en1 en, run_core p cs (core_new p) = Ok s1 /\ run_core p (looped T cs n) (core_new p) = Ok s /\
    calc_energy e (fill_core (snd (window_stats p T s1))) = Exactly en1 /\ calc_energy e (fill_core (snd (window_stats p (N.of_nat n * T) s))) = Exactly en /\
    (en_total en == qnat n * en_total en1)%Q.
Proof.
  intros W WE SM L R T1 TN. destruct (loop_energy p cs T e W WE SM L R n TN) as (LL & s & en & S & E & _ & C). split; [exact LL|].
  destruct (backgrounds_exist e WE) as [I B]. destruct (legal_history_accepted p cs T W T1 L) as [s1 S1]. destruct (core_energy_charge p e I cs T s1 W WE SM B T1 L S1) as (en1 & E1 & _).
  exists s1, s, en1, en. repeat (split; [assumption|]). exact (C s1 en1 S1 E1).
Qed.

(* A test for being at rest. *)
Definition opt_le (k T : N) (o : option N) : bool := match o with Some x => x + k <=? T | None => true end.
Definition coversb (p : memspec) : bool :=
  (act_delay p <=? ms_tRFC p) &&
  match ms_std p with DDR4 => true | DDR5 => act_delay p <=? ms_tRFCsb p | LPDDR4 | LPDDR5 => act_delay p <=? ms_tRFCPB p | LPDDR6 => act_delay p <=? ms_tRFCDB p end.
Definition bank_restb (p : memspec) (T : N) (b : sbank) : bool :=
  match sb_state b with Closed => opt_le (act_delay p) T (sb_since b) && opt_le (ms_tRP p) T (sb_pre b) && opt_le 1 T (sb_off b) | _ => false end.
Definition restb (p : memspec) (T : N) (d : device) : bool :=
  match dv_mode d, dv_pend d with Up, None => forallb (bank_restb p T) (dv_banks d) | _, _ => false end.
Definition restsb (p : memspec) (cs : list Command) (T : N) : bool :=
  coversb p && forallb (fun r => match device_at p r cs T with Some d => restb p T d | None => false end) (seq 0 (ms_ranks p)).
Lemma rests_by p cs T : timely p cs T -> restsb p cs T = true -> rests p cs T.
Proof.
  intros (A & _ & F & _) H. split; [exact A|]. split; [exact F|]. apply andb_true_iff in H as [C H]. rewrite forallb_forall in H. intros r Hr.
  specialize (H r ltac:(apply in_seq; lia)). destruct (device_at p r cs T) as [d|]; [|discriminate]. exists d. split; [reflexivity|].
  assert (CV : refresh_covers p).
  { unfold coversb in C. apply andb_true_iff in C as [C1 C2]. split; [lia|]. destruct (ms_std p); auto; lia. }
  unfold restb in H. destruct (dv_mode d) eqn:M; try discriminate. destruct (dv_pend d) eqn:P; try discriminate. split; [exact M|]. split; [exact P|].
  rewrite forallb_forall in H. apply Forall_forall. intros b Hb. specialize (H b Hb). unfold bank_restb in H. destruct (sb_state b) eqn:E; try discriminate.
  apply andb_true_iff in H as [H H3]. apply andb_true_iff in H as [H1 H2]. split; [exact E|].
  unfold opt_le in *. split; [|split]; intros x Hx; rewrite Hx in *; try split; auto; lia.
Qed.
