From Coq Require Import ZArith QArith NArith List Bool Lia ZifyBool ZifyNat ZifyN Arith Permutation.
From Verif Require Import Base Command CoreModel ListFacts HistorySpec CoreHistory DeviceSpec RefineBase RefineMain DeviceFacts DeviceSleep DeviceTop ComposeMain RenameSpec RenameProofs.
From Verif Require Import Bits StatsModel EnergyModel EnergySpec EnergyProofs DramModel ChargeSpec ChargeBase ChargeProofs ChargeTop.
Import ListNotations.
Local Open Scope N_scope.

Lemma run_moved p sg pi l : renumbers (ms_banks p) pi -> Forall (compatible p sg pi) l -> forall d d' e, msim p pi d d' -> run_device p l d = Some e ->
  exists e', run_device p (map (rename sg pi) l) d' = Some e' /\ msim p pi e e'.
Proof.
  intros R. induction 1 as [|c l C _ IH]; intros d d' e M H; cbn [run_device map] in *; [injection H as <-; eauto|].
  destruct (command p c (settle (cmd_ts c) d)) as [x|] eqn:E; [|discriminate]. change (cmd_ts (rename sg pi c)) with (cmd_ts c).
  destruct (command_moved p pi R sg c C _ _ x (msim_settle p pi (cmd_ts c) _ _ M) E) as (x' & E' & M'). rewrite E'. eauto.
Qed.

Section Rename.
Variable p : memspec.
Variables sg pi : nat -> nat.
Variable cs : list Command.
Variable t : N.
Hypothesis RS : renumbers (ms_ranks p) sg.
Hypothesis RB : renumbers (ms_banks p) pi.
Hypothesis CO : Forall (compatible p sg pi) cs.
Hypothesis W : DeviceSpec.well_formed p.
Hypothesis T : timely p cs t.
Hypothesis L : legal_history p cs.
Let cs' := map (rename sg pi) cs.

Lemma times_same : map cmd_ts cs' = map cmd_ts cs. Proof. unfold cs'. rewrite map_map. reflexivity. Qed.
Lemma renamed_timely : timely p cs' t.
Proof using T. unfold timely. rewrite times_same. unfold cs'. rewrite map_length. exact T. Qed.
Lemma filter_renamed (f : Command -> bool) r l : (r < ms_ranks p)%nat -> Forall (fun c => (N.to_nat (cmd_rank c) < ms_ranks p)%nat) l -> (forall c, f (rename sg pi c) = f c) ->
  filter (fun c => to_rank (sg r) c && f c) (map (rename sg pi) l) = map (rename sg pi) (filter (fun c => to_rank r c && f c) l).
Proof using RS.
  intros Hr H Hf. induction H as [|c l Hc _ IH]; [reflexivity|]. cbn [map filter]. rewrite Hf, IH.
  assert (to_rank (sg r) (rename sg pi c) = to_rank r c) as ->; [|destruct (to_rank r c && f c); reflexivity].
  unfold to_rank, rename. cbn. rewrite Nat2N.id. destruct (Nat.eqb_spec (N.to_nat (cmd_rank c)) r) as [->|N]; [apply Nat.eqb_refl|]. apply Nat.eqb_neq. intros E. apply N, (proj2 RS); auto.
Qed.
Lemma filter_rank r : (r < ms_ranks p)%nat -> filter (to_rank (sg r)) cs' = map (rename sg pi) (filter (to_rank r) cs).
Proof using RS L.
  intros Hr. pose proof (filter_renamed (fun _ => true) r cs Hr (proj1 L) (fun _ => eq_refl)) as H.
  rewrite (filter_ext _ (to_rank (sg r))) in H by (intros; apply andb_true_r). fold cs' in H. rewrite H. f_equal. apply filter_ext. intros; apply andb_true_r.
Qed.
Lemma sub_compatible f : Forall (compatible p sg pi) (filter f cs).
Proof using CO. rewrite Forall_forall in *. intros x Hx. apply CO. now apply filter_In in Hx. Qed.
Lemma renamed_legal : legal_history p cs'.
Proof using RS RB CO L.
  split.
  - unfold cs'. apply Forall_map. pose proof (proj1 L) as F. rewrite Forall_forall in *. intros c Hc. cbn. rewrite Nat2N.id. apply (proj1 RS). exact (F c Hc).
  - intros r' Hr'. destruct (renumbers_onto _ _ r' RS Hr') as (r & Hr & <-). unfold legal. rewrite (filter_rank r Hr). pose proof (proj2 L r Hr) as E. unfold legal in E.
    destruct (run_device p (filter (to_rank r) cs) (device_new p)) as [d|] eqn:D; [|now elim E].
    destruct (run_moved p sg pi _ RB (sub_compatible _) _ _ d (msim_new p pi RB) D) as (d' & D' & _). rewrite D'. discriminate.
Qed.
Lemma device_moved r n d : (r < ms_ranks p)%nat -> device_at p r cs n = Some d -> exists d', device_at p (sg r) cs' n = Some d' /\ msim p pi d d'.
Proof using RS RB CO L.
  intros Hr H. unfold device_at in *. unfold cs'. rewrite (filter_renamed (fun c => cmd_ts c <=? n) r cs Hr (proj1 L)) by reflexivity.
  destruct (run_device p (filter _ cs) (device_new p)) as [x|] eqn:D; [|discriminate]. cbn in H. injection H as <-.
  destruct (run_moved p sg pi _ RB (sub_compatible _) _ _ x (msim_new p pi RB) D) as (x' & D' & M). rewrite D'. cbn. eexists. split; [reflexivity|]. now apply msim_settle.
Qed.
Lemma both_there r n : (r < ms_ranks p)%nat -> n <= t -> exists d d', device_at p r cs n = Some d /\ device_at p (sg r) cs' n = Some d' /\ msim p pi d d'.
Proof using RS RB CO W T L.
  intros Hr Hn. destruct (device_at_ok p r cs t n W T (proj2 L r Hr) Hn) as (d & ps & D & _). destruct (device_moved r n d Hr D) as (d' & D' & M). eauto.
Qed.
Lemma cycles_moved r P P' : (r < ms_ranks p)%nat -> (forall d d', msim p pi d d' -> P' d' = P d) -> cycles_where p (sg r) cs' t P' = cycles_where p r cs t P.
Proof using RS RB CO W T L.
  intros Hr H. unfold cycles_where. apply count_below_ext. intros m Hm. destruct (both_there r (N.of_nat m) Hr ltac:(lia)) as (d & d' & D & D' & M). rewrite D, D'. now apply H.
Qed.
Lemma busy_moved d d' : msim p pi d d' -> existsb busy (dv_banks d') = existsb busy (dv_banks d).
Proof using RB. intros M. apply existsb_perm. symmetry. apply (moved_permutation p pi RB), M. Qed.
Lemma mode_moved m d d' : msim p pi d d' -> mode_is m d' = mode_is m d.
Proof. intros M. unfold mode_is. now rewrite (ms_m _ _ _ _ M). Qed.
Theorem renamed_rank r : (r < ms_ranks p)%nat -> exists v, rank_view p cs t r = Some v /\ rank_view p cs' t (sg r) = Some v.
Proof using RS RB CO W T L.
  intros Hr. exists (spec_rank p r cs t). rewrite !rank_view_spec; auto using renamed_legal, renamed_timely; [|apply (proj1 RS), Hr]. split; [reflexivity|]. f_equal. unfold spec_rank.
  f_equal; apply cycles_moved; auto; intros d d' M; try now apply mode_moved.
  - unfold rank_acts. now rewrite (busy_moved _ _ M), (mode_moved _ _ _ M).
  - unfold rank_idles. now rewrite (busy_moved _ _ M), (mode_moved _ _ _ M).
Qed.
Theorem renamed_bank r b : (r < ms_ranks p)%nat -> (b < ms_banks p)%nat -> exists v, bank_view p cs t r b = Some v /\ bank_view p cs' t (sg r) (pi b) = Some v.
Proof using RS RB CO W T L.
  intros Hr Hb. exists (spec_bank p r b cs t). rewrite !bank_view_spec; auto using renamed_legal, renamed_timely; [|apply (proj1 RS), Hr|apply (proj1 RB), Hb]. split; [reflexivity|]. f_equal. unfold spec_bank.
  f_equal; apply cycles_moved; auto; intros d d' M; try solve [now apply mode_moved]; pose proof (ms_b _ _ _ _ M) as (_ & _ & N).
  - unfold bank_acts. now rewrite (N b Hb), (mode_moved _ _ _ M).
  - unfold bank_idles. now rewrite (N b Hb), (mode_moved _ _ _ M).
Qed.
Lemma counted_renamed k c b : compatible p sg pi c -> well_addressed p c = true -> (b < ms_banks p)%nat -> HistorySpec.counted p k (rename sg pi c) (pi b) = HistorySpec.counted p k c b.
Proof using RB.
  intros C WA Hb. pose proof (renamed_addr pi sg c) as RA. pose proof (renamed_dbank pi sg c) as RD. unfold HistorySpec.counted, is_cmd. change (cmd_type (rename sg pi c)) with (cmd_type c). pose proof (C b Hb) as F. unfold footprint in F. change (cmd_type (rename sg pi c)) with (cmd_type c) in F.
  pose proof (second_bank p pi RB sg c C) as S2. unfold well_addressed in WA.
  destruct k; try reflexivity; destruct (cmd_type c) eqn:E; cbn [CmdType_beq andb orb b2n] in *; try reflexivity; rewrite ?RA, ?RD in *.
  all: try (f_equal; apply (neq_pi p pi RB); lia).
  all: try (now rewrite F).
  - rewrite S2; [|reflexivity|]. 2: { unfold well_addressed. rewrite E. exact WA. } cbn zeta in WA. rewrite !(neq_pi p pi RB) by lia. reflexivity.
  - cbn zeta in WA. rewrite !(neq_pi p pi RB) by lia. reflexivity.
Qed.
Lemma legal_addressed l : forall d e, run_device p l d = Some e -> Forall (fun c => well_addressed p c = true) l.
Proof.
  induction l as [|c l IH]; intros d e H; constructor; cbn [run_device] in H; destruct (command p c (settle (cmd_ts c) d)) as [x|] eqn:E; try discriminate.
  - unfold command in E. destruct (well_addressed p c); [reflexivity|]. rewrite andb_false_r in E. discriminate.
  - eapply IH, H.
Qed.
Lemma counted_in_rank k r b l : counted_in p k r b l = fold_right (fun c n => N.of_nat (HistorySpec.counted p k c b) + n) 0 (filter (to_rank r) l).
Proof. induction l as [|c l IH]; [reflexivity|]. cbn [counted_in fold_right filter]. fold (counted_in p k r b l). unfold to_rank at 1. destruct (_ =? r)%nat; cbn [fold_right]; now rewrite IH. Qed.
Lemma counted_in_renamed k r b : (r < ms_ranks p)%nat -> (b < ms_banks p)%nat -> counted_in p k (sg r) (pi b) cs' = counted_in p k r b cs.
Proof using RS RB CO L.
  intros Hr Hb. rewrite !counted_in_rank, (filter_rank r Hr). pose proof (proj2 L r Hr) as E. unfold legal in E. destruct (run_device p (filter (to_rank r) cs) (device_new p)) as [d|] eqn:D; [|now elim E].
  pose proof (legal_addressed _ _ _ D) as WA. pose proof (sub_compatible (to_rank r)) as C. clear E D. induction (filter (to_rank r) cs) as [|c l IH]; [reflexivity|].
  inversion WA; inversion C; subst. cbn [map fold_right]. rewrite IH by assumption. f_equal. f_equal. now apply counted_renamed.
Qed.
Theorem renamed_counter r b k : (r < ms_ranks p)%nat -> (b < ms_banks p)%nat -> exists n, bank_counter p cs t r b k = Some n /\ bank_counter p cs' t (sg r) (pi b) k = Some n.
Proof using RS RB CO W T L.
  intros Hr Hb. destruct (counter_tally p cs t r b k W T L Hr Hb) as (d & D & C1 & _).
  destruct (counter_tally p cs' t (sg r) (pi b) k W renamed_timely renamed_legal (proj1 RS r Hr) (proj1 RB b Hb)) as (d' & D' & C2 & _).
  destruct (device_moved r t d Hr D) as (x & Dx & M). rewrite D' in Dx. injection Dx as <-. pose proof (ms_b _ _ _ _ M) as (_ & _ & N).
  eexists. split; [exact C1|]. rewrite C2. f_equal. unfold tally. destruct k; rewrite ?counted_in_renamed by auto; try reflexivity. now rewrite (N b Hb).
Qed.
Lemma charge_renamed e w I r : (r < ms_ranks p)%nat -> (charge p e w I (sg r) cs' t == charge p e w I r cs t)%Q.
Proof using RS RB CO W T L.
  intros Hr. unfold charge. destruct (both_there r t Hr (N.le_refl t)) as (d & d' & D & D' & M). rewrite D, D'. unfold open_rows.
  rewrite (filter_perm row_open _ _ (moved_permutation p pi RB _ _ (ms_b _ _ _ _ M))). rewrite (filter_rank r Hr), qsum_map.
  assert (over_cycles p (sg r) cs' t (standby w I) == over_cycles p r cs t (standby w I))%Q as ->; [|reflexivity].
  unfold over_cycles. apply qsum_ext. intros n Hn. apply in_seq in Hn. destruct (both_there r (N.of_nat n) Hr ltac:(lia)) as (x & x' & X & X' & MX). rewrite X, X'. unfold standby, busy_banks. rewrite (ms_m _ _ _ _ MX).
  rewrite (filter_perm busy _ _ (moved_permutation p pi RB _ _ (ms_b _ _ _ _ MX))). reflexivity.
Qed.
Lemma qsum_perm {A} (f : A -> Q) l l' : Permutation l l' -> (qsum f l == qsum f l')%Q.
Proof. induction 1; rewrite ?qsum_cons; [reflexivity|rewrite IHPermutation; reflexivity|ring|]. rewrite IHPermutation1. exact IHPermutation2. Qed.
Theorem renamed_energy e : EnergySpec.well_formed e -> same_memory p e ->
  exists s s' en en', run_core p cs (core_new p) = Ok s /\ run_core p cs' (core_new p) = Ok s' /\
    calc_energy e (fill_core (snd (window_stats p t s))) = Exactly en /\ calc_energy e (fill_core (snd (window_stats p t s'))) = Exactly en' /\ (en_total en == en_total en')%Q.
Proof using RS RB CO W T L.
  intros WE SM. destruct (backgrounds_exist e WE) as [I B].
  destruct (legal_history_accepted p cs t W T L) as [s S]. destruct (legal_history_accepted p cs' t W renamed_timely renamed_legal) as [s' S'].
  destruct (core_energy_charge p e I _ t s W WE SM B T L S) as (en & E & C). destruct (core_energy_charge p e I _ t s' W WE SM B renamed_timely renamed_legal S') as (en' & E' & C').
  exists s, s', en, en'. repeat (split; [assumption|]). rewrite C, C'. apply qsum_ext. intros w _.
  symmetry. etransitivity; [symmetry; apply (qsum_perm _ _ _ (renumbers_perm _ _ RS))|]. rewrite qsum_map. apply qsum_ext. intros r Hr. apply in_seq in Hr. rewrite charge_renamed by lia. reflexivity.
Qed.
End Rename.

(* ---- which renumberings are compatible ---- *)
Lemma names_compatible p sg pi c : renumbers (ms_banks p) pi -> well_addressed p c = true -> names_banks (cmd_type c) = true -> compatible p sg pi c.
Proof.
  intros R WA N i Hi. unfold footprint. change (cmd_type (rename sg pi c)) with (cmd_type c). rewrite (renamed_addr pi sg c), (renamed_dbank pi sg c). unfold well_addressed in WA.
  destruct (cmd_type c); try discriminate; try reflexivity; try (apply (neq_pi p pi R); [lia|exact Hi]).
  cbn zeta in WA. rewrite !(neq_pi p pi R) by (auto; lia). reflexivity.
Qed.
Lemma index_compatible p sg pi c : DeviceSpec.well_formed p -> ms_std p = DDR5 -> renumbers (ms_banks p) pi -> keeps_indices p pi -> well_addressed p c = true ->
  cmd_type c <> REFP2B -> compatible p sg pi c.
Proof.
  intros W D R K WA N. destruct (names_banks (cmd_type c)) eqn:E; [now apply names_compatible|]. intros i Hi. destruct W as [_ W]. destruct (W D) as [G1 G2].
  assert (X : forall a j, (a < ms_banks p)%nat -> (j < ms_banks p)%nat -> same_index p (pi a) (pi j) = same_index p a j).
  { intros a j Ha Hj. unfold same_index. pose proof (proj1 R a Ha). pose proof (proj1 R j Hj). pose proof (K j a Hj Ha) as KK.
    assert (Q : forall x, (x < ms_banks p)%nat -> (x / ms_banksPerGroup p <? ms_groups p)%nat = true) by (intros x Hx; apply Nat.ltb_lt, Nat.div_lt_upper_bound; [lia|rewrite Nat.mul_comm, G2; exact Hx]).
    rewrite !Q by assumption. rewrite !andb_true_r. destruct (Nat.eqb_spec (j mod ms_banksPerGroup p) (a mod ms_banksPerGroup p)) as [e|e].
    - apply Nat.eqb_eq, KK, e.
    - apply Nat.eqb_neq. intros F. apply e, KK, F. }
  unfold footprint. change (cmd_type (rename sg pi c)) with (cmd_type c). rewrite (renamed_addr pi sg c). unfold well_addressed in WA.
  destruct (cmd_type c); try discriminate; try congruence; apply X; auto; lia.
Qed.
