(* Which parameters of a memory a command depends on. *)
From Coq Require Import ZArith QArith NArith List Bool Lia ZifyBool ZifyNat ZifyN Arith.
From Verif Require Import Base Command CoreModel ListFacts HistorySpec CoreHistory DeviceSpec RefineBase RefineMain DeviceFacts DeviceTop ComposeMain ParamSpec.
From Verif Require Import Bits StatsModel EnergyModel EnergySpec EnergyProofs DramModel ChargeSpec ChargeBase ChargeProofs ChargeTop.
Import ListNotations.
Local Open Scope N_scope.

Lemma mapi_ext {A B} (f g : nat -> A -> B) l : (forall i x, f i x = g i x) -> forall k, mapi k f l = mapi k g l.
Proof. intros H. induction l as [|x l IH]; intros k; cbn [mapi]; [reflexivity|]. now rewrite H, IH. Qed.

Ltac params := repeat match goal with H : _ /\ _ |- _ => destruct H end; repeat match goal with E : ?f ?p = ?f ?q |- context[?f ?p] => rewrite E end; reflexivity.

Section Agree.
Context (p q : memspec).
Hypothesis NR : ms_ranks p = ms_ranks q.
Hypothesis NB : ms_banks p = ms_banks q.

Lemma footprint_same c i : same_for p q (cmd_type c) -> footprint p c i = footprint q c i.
Proof using. intros [_ H]. unfold footprint, same_index. destruct (cmd_type c); try reflexivity; params. Qed.
Lemma touch_same c g bs : same_for p q (cmd_type c) -> touch p c g bs = touch q c g bs.
Proof using. intros H. apply mapi_ext. intros i x. now rewrite (footprint_same c i H). Qed.
Lemma addressed_same c P bs : same_for p q (cmd_type c) -> addressed p c P bs = addressed q c P bs.
Proof using. intros H. unfold addressed. f_equal. apply mapi_ext. intros i x. now rewrite (footprint_same c i H). Qed.
Lemma ready_same bs : act_delay p = act_delay q -> ms_tRP p = ms_tRP q -> ready p bs = ready q bs.
Proof using. intros A B. unfold ready. f_equal. apply map_ext. intros b. unfold bank_ready. now rewrite A, B. Qed.
Lemma command_same c d : same_for p q (cmd_type c) -> command p c d = command q c d.
Proof using NB.
  intros H. pose proof (fun g bs => touch_same c g bs H) as TC. pose proof (fun P bs => addressed_same c P bs H) as AC. destruct H as [I H]. unfold command. rewrite <- I.
  assert (well_addressed p c = well_addressed q c) as ->. { unfold well_addressed. rewrite NB. destruct (cmd_type c); try reflexivity; params. }
  destruct (in_standard p (cmd_type c) && well_addressed q c); [|reflexivity].
  destruct (cmd_type c) eqn:T; unfold up_command; rewrite ?T; rewrite ?AC, ?TC; try reflexivity;
    try (match type of H with _ /\ _ => destruct H as [H1 H2] end); unfold autoclose_bank; rewrite ?(ready_same _ H1 H2); rewrite ?H1, ?H2, ?H; try reflexivity.
Qed.
Lemma run_same cs : Forall (fun c => same_for p q (cmd_type c)) cs -> forall d, run_device p cs d = run_device q cs d.
Proof using NB. induction 1 as [|c l H _ IH]; intros d; [reflexivity|]. cbn [run_device]. rewrite (command_same c _ H). destruct (command q c _); [apply IH|reflexivity]. Qed.
Context (cs : list Command).
Hypothesis A : Forall (fun c => same_for p q (cmd_type c)) cs.
Lemma part f : Forall (fun c => same_for p q (cmd_type c)) (filter f cs).
Proof using A. rewrite Forall_forall in *. intros c H. apply A. now apply filter_In in H. Qed.
Lemma new_same : device_new p = device_new q.
Proof using NB. unfold device_new. now rewrite NB. Qed.
Lemma device_same r n : device_at p r cs n = device_at q r cs n.
Proof using NB A. unfold device_at. now rewrite new_same, (run_same _ (part _)). Qed.
Lemma history_same : legal_history p cs -> legal_history q cs.
Proof using NR NB A. intros [L1 L2]. rewrite NR in *. split; [exact L1|]. intros r Hr. specialize (L2 r Hr). unfold legal in *. now rewrite <- new_same, <- (run_same _ (part _)). Qed.
Lemma cycles_same r t P : cycles_where p r cs t P = cycles_where q r cs t P.
Proof using NB A. unfold cycles_where. apply count_below_ext. intros m _. now rewrite device_same. Qed.
Lemma counted_same k r b : counted_in p k r b cs = counted_in q k r b cs.
Proof using A.
  unfold counted_in. induction A as [|c l H _ IH]; [reflexivity|]. cbn [fold_right]. rewrite IH by (now inversion A). assert (HistorySpec.counted p k c b = HistorySpec.counted q k c b) as ->; [|reflexivity].
  destruct H as [_ H]. unfold HistorySpec.counted, is_cmd, same_index. destruct k; try reflexivity; destruct (cmd_type c); try reflexivity; params.
Qed.
End Agree.

Theorem agree_legal p q cs : agree_on p q cs -> legal_history p cs -> legal_history q cs.
Proof. intros (A & B & C). now apply history_same. Qed.
Theorem agree_views p q cs t : agree_on p q cs -> DeviceSpec.well_formed p -> DeviceSpec.well_formed q -> timely p cs t -> timely q cs t -> legal_history p cs ->
  forall r, (r < ms_ranks p)%nat -> (exists v, rank_view p cs t r = Some v /\ rank_view q cs t r = Some v) /\
  forall b, (b < ms_banks p)%nat -> (exists v, bank_view p cs t r b = Some v /\ bank_view q cs t r b = Some v) /\
    forall k, exists n, bank_counter p cs t r b k = Some n /\ bank_counter q cs t r b k = Some n.
Proof.
  intros AG W W' T T' L r Hr. pose proof (agree_legal p q cs AG L) as L'. destruct AG as (NR & NB & A). pose proof Hr as Hr'. rewrite NR in Hr'. split.
  - exists (spec_rank p r cs t). rewrite !rank_view_spec by auto. split; [reflexivity|]. unfold spec_rank. now rewrite !(cycles_same p q NB cs A).
  - intros b Hb. pose proof Hb as Hb'. rewrite NB in Hb'. split.
    + exists (spec_bank p r b cs t). rewrite !bank_view_spec by auto. split; [reflexivity|]. unfold spec_bank. now rewrite !(cycles_same p q NB cs A).
    + intros k. destruct (counter_tally p cs t r b k W T L Hr Hb) as (d1 & D1 & C1 & _). destruct (counter_tally q cs t r b k W' T' L' Hr' Hb') as (d2 & D2 & C2 & _).
      eexists. split; [exact C1|]. rewrite C2. rewrite (device_same p q NB cs A r t) in D1. rewrite D1 in D2. injection D2 as <-. f_equal.
      unfold tally. destruct k; now rewrite (counted_same p q cs A).
Qed.
Theorem agree_energy p q cs t : agree_on p q cs -> DeviceSpec.well_formed p -> DeviceSpec.well_formed q -> timely p cs t -> timely q cs t -> legal_history p cs ->
  forall e, EnergySpec.well_formed e -> same_memory p e -> same_memory q e ->
  exists s s' en en', run_core p cs (core_new p) = Ok s /\ run_core q cs (core_new q) = Ok s' /\
    calc_energy e (fill_core (snd (window_stats p t s))) = Exactly en /\ calc_energy e (fill_core (snd (window_stats q t s'))) = Exactly en' /\ (en_total en == en_total en')%Q.
Proof.
  intros AG W W' T T' L e WE SM SM'. pose proof (agree_legal p q cs AG L) as L'. destruct AG as (NR & NB & A). destruct (backgrounds_exist e WE) as [I B].
  destruct (legal_history_accepted p cs t W T L) as [s S]. destruct (legal_history_accepted q cs t W' T' L') as [s' S'].
  destruct (core_energy_charge p e I _ t s W WE SM B T L S) as (en & E & C). destruct (core_energy_charge q e I _ t s' W' WE SM' B T' L' S') as (en' & E' & C').
  exists s, s', en, en'. repeat (split; [assumption|]). rewrite C, C'. rewrite <- NR. apply qsum_ext. intros w _. apply qsum_ext. intros r _.
  unfold charge. rewrite (device_same p q NB cs A r t).
  assert (over_cycles p r cs t (standby w (I w)) == over_cycles q r cs t (standby w (I w)))%Q as ->; [|reflexivity].
  unfold over_cycles. apply qsum_ext. intros i _. rewrite (device_same p q NB cs A). reflexivity.
Qed.
Theorem universal_agree s s' p cs : ms_tRCDW p <= ms_tRCD p -> Forall (fun c => universal (cmd_type c) = true) cs -> agree_on (under s p) (under s' p) cs.
Proof.
  intros D U. split; [reflexivity|]. split; [reflexivity|]. eapply Forall_impl; [|exact U]. intros c H. cbn beta in H. unfold universal in H.
  assert (forall x, act_delay (under x p) = ms_tRCD p) as AD by (intros x; unfold act_delay; destruct x; cbn; lia).
  split; [unfold in_standard; destruct (cmd_type c); try discriminate H; reflexivity|]. destruct (cmd_type c); try discriminate H; repeat split; rewrite !AD; reflexivity.
Qed.
