From Coq Require Import ZArith QArith NArith List Bool Lia ZifyBool ZifyNat ZifyN Arith.
From Verif Require Import Base Command CoreModel ListFacts HistorySpec CoreHistory DeviceSpec RefineBase RefineMain DeviceFacts DeviceSleep DeviceTop ComposeMain LocalSpec.
From Verif Require Import Bits StatsModel EnergyModel EnergySpec EnergyProofs DramModel ChargeSpec ChargeBase ChargeProofs ChargeTop.
Import ListNotations.
Local Open Scope N_scope.

(* ---- the core sees time, kind, rank and banks ---- *)
Lemma alike_step p c c' s : alike c c' -> do_command p c s = do_command p c' s.
Proof. destruct c, c'. intros (A & B & C & D & E). cbn in *. subst. reflexivity. Qed.
Theorem alike_run p cs cs' : Forall2 alike cs cs' -> forall s, run_core p cs s = run_core p cs' s.
Proof. induction 1 as [|c c' cs cs' A _ IH]; intros s; [reflexivity|]. cbn [run_core]. rewrite (alike_step p c c' s A). destruct (do_command p c' s); auto. Qed.

(* ---- a command that leaves the rank as it is ---- *)
Section Insert.
Variable p : memspec.
Variables a z : list Command.
Variable c : Command.
Hypothesis ND : nondecreasing 0 (map cmd_ts (a ++ c :: z)).
Let r0 := N.to_nat (cmd_rank c).

Lemma a_before x : In x a -> cmd_ts x <= cmd_ts c.
Proof using ND.
  intros H. apply nondecreasing_cat in ND as [A B]. cbn in B. destruct B as [B _]. pose proof (nondecreasing_le a 0 x A H). lia.
Qed.
Lemma z_after x : In x z -> cmd_ts c <= cmd_ts x.
Proof using ND. intros H. apply nondecreasing_cat in ND as [_ B]. cbn in B. destruct B as [_ B]. apply (proj2 (nondecreasing_ge z _ B) x H). Qed.
Lemma nd_without : nondecreasing 0 (map cmd_ts (a ++ z)).
Proof using ND.
  apply nondecreasing_cat. apply nondecreasing_cat in ND as [A B]. split; [exact A|]. cbn in B. destruct B as [B C]. destruct z as [|x l]; cbn in *; [exact Logic.I|]. destruct C. split; [lia|auto].
Qed.
Lemma device_a : device_at p r0 a (cmd_ts c) = option_map (settle (cmd_ts c)) (run_device p (filter (to_rank r0) a) (device_new p)).
Proof using ND.
  unfold device_at. do 2 f_equal. apply filter_ext_in'. intros x Hx. pose proof (a_before x Hx). destruct (to_rank r0 x); [|reflexivity]. cbn. lia.
Qed.
Lemma c_here : to_rank r0 c = true. Proof. unfold to_rank, r0. apply Nat.eqb_refl. Qed.
Lemma run_settled x l d n : (forall y, In y l -> x <= cmd_ts y) -> x <= n ->
  option_map (settle n) (run_device p l (settle x d)) = option_map (settle n) (run_device p l d).
Proof.
  intros H Hn. destruct l as [|y l]; cbn [run_device option_map].
  - now rewrite settle_settle.
  - rewrite settle_settle; [reflexivity|]. apply H. now left.
Qed.

Section Unmoved.
Hypothesis U : forall d, device_at p r0 a (cmd_ts c) = Some d -> command p c d = Some d.
Lemma run_with l n : (forall y, In y l -> cmd_ts c <= cmd_ts y) -> cmd_ts c <= n ->
  option_map (settle n) (run_device p (filter (to_rank r0) a ++ c :: l) (device_new p)) = option_map (settle n) (run_device p (filter (to_rank r0) a ++ l) (device_new p)).
Proof using U ND.
  intros H Hn. rewrite !run_device_cat. rewrite device_a in U. destruct (run_device p (filter (to_rank r0) a) (device_new p)) as [d|]; [|reflexivity].
  cbn [option_map] in U. cbn [run_device]. rewrite (U _ eq_refl). now apply run_settled.
Qed.
Lemma device_with r n : device_at p r (a ++ c :: z) n = device_at p r (a ++ z) n.
Proof using U ND.
  unfold device_at. rewrite !filter_app. cbn [filter]. destruct (to_rank r c) eqn:E; [|reflexivity].
  assert (r = r0) as -> by (unfold to_rank, r0 in *; lia). destruct (N.leb_spec (cmd_ts c) n) as [L|L]; cbn [andb]; [|reflexivity].
  assert (filter (fun c0 => to_rank r0 c0 && (cmd_ts c0 <=? n)) a = filter (to_rank r0) a) as ->.
  { apply filter_ext_in'. intros x Hx. pose proof (a_before x Hx). destruct (to_rank r0 x); [|reflexivity]. cbn. lia. }
  apply run_with; [|exact L]. intros y Hy. apply filter_In in Hy as [Hy _]. now apply z_after.
Qed.
Lemma map_some {A B} (f : A -> B) x y : option_map f x = option_map f y -> (x <> None <-> y <> None).
Proof. destruct x, y; cbn; intros H; try discriminate; split; congruence. Qed.
Lemma legal_with r : legal p r (a ++ c :: z) <-> legal p r (a ++ z).
Proof using U ND.
  unfold legal. rewrite !filter_app. cbn [filter]. destruct (to_rank r c) eqn:E; [|reflexivity].
  assert (r = r0) as -> by (unfold to_rank, r0 in *; lia).
  apply (map_some (settle (N.max (cmd_ts c) 0))). apply run_with; [|lia]. intros y Hy. apply filter_In in Hy as [Hy _]. now apply z_after.
Qed.
Lemma cycles_with r t P : cycles_where p r (a ++ c :: z) t P = cycles_where p r (a ++ z) t P.
Proof using U ND. unfold cycles_where. apply count_below_ext. intros m _. now rewrite device_with. Qed.
Lemma charge_with e w I r t : (charge p e w I r (a ++ c :: z) t == charge p e w I r (a ++ z) t + (if to_rank r c then command_charge e w I c else 0))%Q.
Proof using U ND.
  unfold charge. rewrite device_with.
  assert (over_cycles p r (a ++ c :: z) t (standby w I) == over_cycles p r (a ++ z) t (standby w I))%Q as ->.
  { unfold over_cycles. apply qsum_ext. intros n _. now rewrite device_with. }
  rewrite !filter_app. cbn [filter]. rewrite !qsum_app. destruct (to_rank r c).
  - rewrite qsum_cons. ring.
  - ring.
Qed.
Hypothesis R : (r0 < ms_ranks p)%nat.
Lemma history_with : legal_history p (a ++ c :: z) <-> legal_history p (a ++ z).
Proof using U ND R.
  unfold legal_history. rewrite !Forall_app. split; intros [H1 H2]; (split; [|intros r Hr; apply legal_with, H2, Hr]).
  - destruct H1 as [A B]. inversion B; auto.
  - destruct H1. split; auto.
Qed.
End Unmoved.
End Insert.

Lemma mapi_same {A} (f : nat -> A -> A) l : forall i, (forall j x, nth_error l j = Some x -> f (i + j)%nat x = x) -> mapi i f l = l.
Proof.
  induction l as [|x l IH]; intros i H; [reflexivity|]. cbn. f_equal; [rewrite <- (Nat.add_0_r i); apply (H 0%nat); reflexivity|].
  apply IH. intros j y Hy. rewrite Nat.add_succ_comm. apply (H (S j)). exact Hy.
Qed.
Lemma silent_unmoved p a c d d' : silent p a c -> device_at p (N.to_nat (cmd_rank c)) a (cmd_ts c) = Some d -> command p c d = Some d' -> d' = d.
Proof.
  intros Q A H. unfold command in H. destruct (in_standard p (cmd_type c) && well_addressed p c); [|discriminate].
  destruct Q as [Q|[[Q N]|Q]].
  - destruct Q as [E|E]; rewrite E in H; destruct (dv_pend d); try discriminate; destruct (dv_mode d); try discriminate;
      unfold up_command in H; rewrite E in H; unfold guard in H; destruct (addressed _ _ _ _); congruence.
  - assert (T : touch p c (close_bank (cmd_ts c)) (dv_banks d) = dv_banks d).
    { unfold touch. apply mapi_same. intros j x Hx. cbn. destruct (footprint p c j) eqn:F; [|reflexivity]. unfold close_bank, is_open. now rewrite (N d A j x Hx F). }
    destruct Q as [E|[E|E]]; rewrite E in H; destruct (dv_pend d) eqn:P; try discriminate; destruct (dv_mode d) eqn:M; try discriminate;
      unfold up_command in H; rewrite E in H; unfold guard in H; destruct (addressed _ _ _ _); try discriminate; rewrite T in H; injection H as <-;
      unfold with_banks; destruct d; cbn in *; congruence.
  - destruct Q as [E|E]; rewrite E in H; injection H as <-; reflexivity.
Qed.

(* What a silent command changes. *)
Section Silent.
Variable p : memspec.
Variables a z : list Command.
Variable c : Command.
Variable t : N.
Hypothesis W : DeviceSpec.well_formed p.
Hypothesis TI : timely p (a ++ c :: z) t.
Hypothesis L : legal_history p (a ++ c :: z).
Hypothesis Q : silent p a c.
Let r0 := N.to_nat (cmd_rank c).
Lemma ordered : nondecreasing 0 (map cmd_ts (a ++ c :: z)). Proof using TI. apply TI. Qed.
Lemma rank_in : (r0 < ms_ranks p)%nat.
Proof using L. destruct L as [F _]. apply Forall_app in F as [_ F]. now inversion F. Qed.
Lemma unmoved : forall d, device_at p r0 a (cmd_ts c) = Some d -> command p c d = Some d.
Proof using TI L Q.
  intros d D. pose proof D as D'. unfold r0 in D'. rewrite (device_a p a z c ordered) in D'. destruct L as [_ LL]. specialize (LL r0 rank_in). unfold legal in LL. rewrite filter_app in LL. cbn [filter] in LL.
  unfold r0 in LL. rewrite (c_here c), run_device_cat in LL. destruct (run_device p _ (device_new p)) as [d0|]; [|now elim LL]. cbn [option_map] in D'. injection D' as <-. cbn [run_device] in LL.
  destruct (command p c (settle (cmd_ts c) d0)) as [d'|] eqn:C; [|now elim LL]. pose proof (silent_unmoved p a c _ d' Q D C) as ->. reflexivity.
Qed.
Lemma timely_without : timely p (a ++ z) t.
Proof using TI.
  clear L Q. destruct TI as (H1 & H2 & H3 & H4 & H5). clear TI. split; [exact (nd_without a z c H1)|]. split; [|split; [|split; [exact H4|]]].
  - unfold no_overflow in H2 |- *. rewrite map_app in H2 |- *. apply Forall_app in H2 as [A B]. inversion B. apply Forall_app. auto.
  - rewrite final_time_cat in H3 |- *. cbn [map final_time] in H3. destruct z; [|exact H3]. cbn in H3 |- *. apply nondecreasing_cat in H1 as [_ H1]. cbn in H1. lia.
  - rewrite app_length in H5 |- *. cbn in H5. lia.
Qed.
Theorem without_legal : legal_history p (a ++ z).
Proof using TI L Q. apply (history_with p a z c ordered unmoved rank_in), L. Qed.
Theorem without_rank r : (r < ms_ranks p)%nat -> exists v, rank_view p (a ++ z) t r = Some v /\ rank_view p (a ++ c :: z) t r = Some v.
Proof using W TI L Q.
  intros Hr. exists (spec_rank p r (a ++ z) t). rewrite !rank_view_spec; auto using without_legal, timely_without. split; [reflexivity|]. f_equal.
  unfold spec_rank. now rewrite !(cycles_with p a z c ordered unmoved).
Qed.
Theorem without_bank r b : (r < ms_ranks p)%nat -> (b < ms_banks p)%nat -> exists v, bank_view p (a ++ z) t r b = Some v /\ bank_view p (a ++ c :: z) t r b = Some v.
Proof using W TI L Q.
  intros Hr Hb. exists (spec_bank p r b (a ++ z) t). rewrite !bank_view_spec; auto using without_legal, timely_without. split; [reflexivity|]. f_equal.
  unfold spec_bank. now rewrite !(cycles_with p a z c ordered unmoved).
Qed.
Lemma counted_with k r b : counted_in p k r b (a ++ c :: z) = counted_in p k r b (a ++ z) + (if one_for k c && (r =? r0)%nat && (b =? N.to_nat (cmd_bank c))%nat then 1 else 0).
Proof using Q.
  rewrite !counted_in_app. cbn [counted_in fold_right]. fold (counted_in p k r b z). fold r0. rewrite (Nat.eqb_sym r r0).
  assert (HistorySpec.counted p k c b = if one_for k c && (b =? N.to_nat (cmd_bank c))%nat then 1 else 0)%nat as ->.
  { unfold HistorySpec.counted, one_for, is_cmd, addr. rewrite (Nat.eqb_sym (N.to_nat (cmd_bank c)) b).
    destruct Q as [[E|E]|[[[E|[E|E]] _]|[E|E]]]; rewrite E; destruct k; cbn; try reflexivity; destruct (b =? _)%nat; reflexivity. }
  destruct (r0 =? r)%nat; [|rewrite andb_false_r; cbn; lia]. rewrite andb_true_r. destruct (one_for k c && _); lia.
Qed.
Theorem without_counter r b k : (r < ms_ranks p)%nat -> (b < ms_banks p)%nat ->
  exists n, bank_counter p (a ++ z) t r b k = Some n /\
    bank_counter p (a ++ c :: z) t r b k = Some (n + (if one_for k c && (r =? r0)%nat && (b =? N.to_nat (cmd_bank c))%nat then 1 else 0)).
Proof using W TI L Q.
  intros Hr Hb. destruct (counter_tally p (a ++ z) t r b k W timely_without without_legal Hr Hb) as (d1 & D1 & C1 & O1).
  destruct (counter_tally p (a ++ c :: z) t r b k W TI L Hr Hb) as (d2 & D2 & C2 & O2).
  rewrite (device_with p a z c ordered unmoved) in D2. rewrite D1 in D2. injection D2 as <-.
  eexists. split; [exact C1|]. rewrite C2. f_equal. unfold tally. destruct k; try apply counted_with.
  rewrite counted_with. cbn [one_for andb]. lia.
Qed.
Theorem without_energy e I : EnergySpec.well_formed e -> same_memory p e -> backgrounds e I ->
  exists s s' en en', run_core p (a ++ z) (core_new p) = Ok s /\ run_core p (a ++ c :: z) (core_new p) = Ok s' /\
    calc_energy e (fill_core (snd (window_stats p t s))) = Exactly en /\ calc_energy e (fill_core (snd (window_stats p t s'))) = Exactly en' /\
    (en_total en' == en_total en + qnat (es_devices e) * qsum (fun w => pw_v w * command_charge e w (I w) c) (es_domains e))%Q.
Proof using W TI L Q.
  intros WE SM B. destruct (legal_history_accepted p (a ++ z) t W timely_without without_legal) as [s S]. destruct (legal_history_accepted p (a ++ c :: z) t W TI L) as [s' S'].
  destruct (core_energy_charge p e I _ t s W WE SM B timely_without without_legal S) as (en & E & C).
  destruct (core_energy_charge p e I _ t s' W WE SM B TI L S') as (en' & E' & C').
  exists s, s', en, en'. repeat (split; [assumption|]). rewrite C, C', <- qsum_scale, <- qsum_plus. apply qsum_ext. intros w _.
  rewrite (qsum_ext _ (fun r => qnat (es_devices e) * (pw_v w * charge p e w (I w) r (a ++ z) t) + (if (r =? r0)%nat then qnat (es_devices e) * (pw_v w * command_charge e w (I w) c) else 0))%Q).
  2: { intros r _. rewrite (charge_with p a z c ordered unmoved). replace (to_rank r c) with (r =? r0)%nat by (unfold to_rank, r0; apply Nat.eqb_sym). destruct (r =? r0)%nat; ring. }
  rewrite qsum_plus. apply Qplus_inj_l.
  pose proof rank_in as RI. revert RI. generalize (ms_ranks p) as n. clear. intros n. induction n as [|n IH]; intros H; [lia|]. rewrite qsum_seq_S. destruct (Nat.eqb_spec n r0) as [->|N].
  - rewrite qsum_zero; [ring|]. intros r Hr. apply in_seq in Hr. destruct (Nat.eqb_spec r r0); [lia|reflexivity].
  - rewrite IH by lia. ring.
Qed.
End Silent.

Lemma nd_insert a c z : nondecreasing 0 (map cmd_ts (a ++ c :: z)) -> nondecreasing 0 (map cmd_ts (a ++ z)). Proof. apply nd_without. Qed.
Lemma addressed_one p c P bs i b : nth_error bs i = Some b -> P b = true -> (forall j, footprint p c j = Nat.eqb i j) -> addressed p c P bs = true.
Proof.
  intros H E F. unfold addressed. apply forallb_forall. intros x Hx. assert (forall l k, (forall j y, nth_error l j = Some y -> nth_error bs (k + j) = Some y) -> In x (mapi k (fun i b => if footprint p c i then P b else true) l) -> x = true) as K.
  { induction l as [|y l IH]; intros k S; cbn; [tauto|]. intros [<-|Hy].
    - rewrite F. destruct (Nat.eqb_spec i k) as [<-|]; [|reflexivity]. specialize (S 0%nat y eq_refl). rewrite Nat.add_0_r in S. rewrite H in S. now injection S as <-.
    - apply (IH (Datatypes.S k)); [|exact Hy]. intros j y' H'. rewrite Nat.add_succ_comm. apply S. exact H'. }
  apply (K bs 0%nat); auto.
Qed.
Theorem access_admitted p a c z : access c -> (N.to_nat (cmd_rank c) < ms_ranks p)%nat -> nondecreasing 0 (map cmd_ts (a ++ c :: z)) -> row_ready p a c ->
  legal_history p (a ++ z) -> legal_history p (a ++ c :: z).
Proof.
  intros A R ND (d & b & D & M & P & N & O) L. apply (history_with p a z c ND); auto. intros d' D'. rewrite D in D'. injection D' as <-.
  assert (BL : (N.to_nat (cmd_bank c) < ms_banks p)%nat).
  { rewrite <- (device_length p _ a _ d D). apply nth_error_Some. rewrite N. discriminate. }
  assert (AD : addressed p c is_open (dv_banks d) = true).
  { apply (addressed_one p c is_open _ _ _ N); [unfold is_open; now rewrite O|]. intros j. unfold footprint, addr. destruct A as [E|E]; now rewrite E. }
  unfold command. assert (in_standard p (cmd_type c) && well_addressed p c = true) as ->.
  { unfold in_standard, well_addressed, addr. destruct A as [E|E]; rewrite E; cbn [andb]; destruct (ms_std p); cbn; apply Nat.ltb_lt; exact BL. }
  destruct A as [E|E]; rewrite E, P, M; unfold up_command; rewrite E, AD; reflexivity.
Qed.

(* ---- only the order inside each rank ---- *)
Section Ranks.
Variable p : memspec.
Variables cs cs' : list Command.
Hypothesis SR : same_for_ranks p cs cs'.
Lemma filter_le r n l : filter (fun c => to_rank r c && (cmd_ts c <=? n)) l = filter (fun c => cmd_ts c <=? n) (filter (to_rank r) l).
Proof. now rewrite filter_filter. Qed.
Lemma device_same r n : (r < ms_ranks p)%nat -> device_at p r cs n = device_at p r cs' n.
Proof using SR. intros H. unfold device_at. now rewrite !filter_le, (SR r H). Qed.
Lemma legal_same r : (r < ms_ranks p)%nat -> legal p r cs <-> legal p r cs'.
Proof using SR. intros H. unfold legal. now rewrite (SR r H). Qed.
Lemma cycles_same r t P : (r < ms_ranks p)%nat -> cycles_where p r cs t P = cycles_where p r cs' t P.
Proof using SR. intros H. unfold cycles_where. apply count_below_ext. intros m _. now rewrite device_same. Qed.
Lemma counted_in_filter k r b l : counted_in p k r b l = counted_in p k r b (filter (to_rank r) l).
Proof.
  induction l as [|c l IH]; [reflexivity|]. cbn [filter]. destruct (to_rank r c) eqn:E; unfold to_rank in E; cbn [counted_in fold_right]; fold (counted_in p k r b l); rewrite E, IH; reflexivity.
Qed.
Lemma charge_same e w I r t : (r < ms_ranks p)%nat -> (charge p e w I r cs t == charge p e w I r cs' t)%Q.
Proof using SR.
  intros H. unfold charge. rewrite (device_same r t H), (SR r H).
  assert (over_cycles p r cs t (standby w I) == over_cycles p r cs' t (standby w I))%Q as ->; [|reflexivity].
  unfold over_cycles. apply qsum_ext. intros n _. now rewrite device_same.
Qed.
Variable t : N.
Hypothesis W : DeviceSpec.well_formed p.
Hypothesis T1 : timely p cs t.
Hypothesis T2 : timely p cs' t.
Hypothesis L1 : legal_history p cs.
Hypothesis F : Forall (fun c => (N.to_nat (cmd_rank c) < ms_ranks p)%nat) cs'.
Theorem order_legal : legal_history p cs'.
Proof using SR L1 F. destruct L1 as [_ L]. split; [exact F|]. intros r Hr. apply (legal_same r Hr), L, Hr. Qed.
Theorem order_views r : (r < ms_ranks p)%nat -> (exists v, rank_view p cs t r = Some v /\ rank_view p cs' t r = Some v) /\
  forall b, (b < ms_banks p)%nat -> (exists v, bank_view p cs t r b = Some v /\ bank_view p cs' t r b = Some v) /\
    forall k, exists n, bank_counter p cs t r b k = Some n /\ bank_counter p cs' t r b k = Some n.
Proof using SR W T1 T2 L1 F.
  intros Hr. pose proof order_legal as L2. split.
  - exists (spec_rank p r cs t). rewrite !rank_view_spec by auto. split; [reflexivity|]. unfold spec_rank. now rewrite !cycles_same.
  - intros b Hb. split.
    + exists (spec_bank p r b cs t). rewrite !bank_view_spec by auto. split; [reflexivity|]. unfold spec_bank. now rewrite !cycles_same.
    + intros k. destruct (counter_tally p cs t r b k W T1 L1 Hr Hb) as (d1 & D1 & C1 & _). destruct (counter_tally p cs' t r b k W T2 L2 Hr Hb) as (d2 & D2 & C2 & _).
      eexists. split; [exact C1|]. rewrite C2. rewrite (device_same r t Hr) in D1. rewrite D1 in D2. injection D2 as <-. f_equal.
      unfold tally. destruct k; rewrite (counted_in_filter _ r b cs), (counted_in_filter _ r b cs'), (SR r Hr); reflexivity.
Qed.
Theorem order_energy e : EnergySpec.well_formed e -> same_memory p e ->
  exists s s' en en', run_core p cs (core_new p) = Ok s /\ run_core p cs' (core_new p) = Ok s' /\
    calc_energy e (fill_core (snd (window_stats p t s))) = Exactly en /\ calc_energy e (fill_core (snd (window_stats p t s'))) = Exactly en' /\ (en_total en == en_total en')%Q.
Proof using SR W T1 T2 L1 F.
  intros WE SM. destruct (backgrounds_exist e WE) as [I B]. pose proof order_legal as L2.
  destruct (legal_history_accepted p cs t W T1 L1) as [s S]. destruct (legal_history_accepted p cs' t W T2 L2) as [s' S'].
  destruct (core_energy_charge p e I _ t s W WE SM B T1 L1 S) as (en & E & C). destruct (core_energy_charge p e I _ t s' W WE SM B T2 L2 S') as (en' & E' & C').
  exists s, s', en, en'. repeat (split; [assumption|]). rewrite C, C'. apply qsum_ext. intros w _. apply qsum_ext. intros r Hr. apply in_seq in Hr. rewrite charge_same by lia. reflexivity.
Qed.
End Ranks.
