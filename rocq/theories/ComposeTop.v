(* Statistics and energy of a trace run after another one. *)
From Coq Require Import ZArith QArith NArith List Bool Lia ZifyBool ZifyNat ZifyN Arith.
From Verif Require Import Base Command CoreModel ListFacts HistorySpec CoreHistory DeviceSpec RefineBase RefineMain DeviceFacts DeviceSleep DeviceTop ComposeSpec ComposeProofs.
From Verif Require Import StatsModel EnergyModel EnergySpec EnergyProofs DramModel ChargeSpec ChargeProofs ChargeTop.
Import ListNotations.
Local Open Scope N_scope.

Lemma filter_later r n T cs : filter (fun c => to_rank r c && (cmd_ts c <=? n + T)) (later T cs) = later T (filter (fun c => to_rank r c && (cmd_ts c <=? n)) cs).
Proof.
  induction cs as [|c cs IH]; [reflexivity|]. cbn [later map filter]. fold (later T cs). rewrite IH.
  change (to_rank r (delay T c)) with (to_rank r c). change (cmd_ts (delay T c)) with (cmd_ts c + T).
  replace (cmd_ts c + T <=? n + T) with (cmd_ts c <=? n) by lia. destruct (to_rank r c && (cmd_ts c <=? n)); reflexivity.
Qed.
Lemma filter_later_all r T cs : filter (to_rank r) (later T cs) = later T (filter (to_rank r) cs).
Proof.
  induction cs as [|c cs IH]; [reflexivity|]. cbn [later map filter]. fold (later T cs). rewrite IH.
  change (to_rank r (delay T c)) with (to_rank r c). destruct (to_rank r c); reflexivity.
Qed.
Lemma later_ts T cs c : In c (later T cs) -> T <= cmd_ts c.
Proof. intros H. apply in_map_iff in H as (x & <- & _). cbn. lia. Qed.
Lemma run_settled p T l d : (forall c, In c l -> T <= cmd_ts c) -> forall n, T <= n ->
  option_map (settle n) (run_device p l (settle T d)) = option_map (settle n) (run_device p l d).
Proof.
  intros H n Hn. destruct l as [|c l]; cbn [run_device option_map].
  - rewrite settle_settle by exact Hn. reflexivity.
  - rewrite settle_settle by (apply H; now left). reflexivity.
Qed.
Lemma run_settled_some p T l d : (forall c, In c l -> T <= cmd_ts c) ->
  (run_device p l (settle T d) = None <-> run_device p l d = None).
Proof.
  intros H. destruct l as [|c l]; cbn [run_device]; [split; discriminate|].
  rewrite settle_settle by (apply H; now left). reflexivity.
Qed.

Section Two.
Variable p : memspec.
Variables cs1 cs2 : list Command.
Variable T : N.
Hypothesis RE : rests p cs1 T.
Hypothesis ND : nondecreasing 0 (map cmd_ts cs2).
Let both := cs1 ++ later T cs2.

Lemma early c : In c cs1 -> cmd_ts c <= T.
Proof using RE. destruct RE as (H1 & H2 & _). intros H. pose proof (proj2 (nondecreasing_ge cs1 0 H1) c H). lia. Qed.
Lemma before_rest r n : n < T -> device_at p r both n = device_at p r cs1 n.
Proof using.
  intros H. unfold device_at, both. rewrite filter_app. rewrite (filter_none _ (later T cs2)), app_nil_r; [reflexivity|].
  intros c Hc. apply later_ts in Hc. lia.
Qed.
Lemma first_part r n : T <= n -> filter (fun c => to_rank r c && (cmd_ts c <=? n)) cs1 = filter (to_rank r) cs1.
Proof using RE. intros H. apply filter_ext_in. intros c Hc. apply early in Hc. destruct (to_rank r c); cbn; lia. Qed.
Lemma first_run r : (r < ms_ranks p)%nat -> exists d0, run_device p (filter (to_rank r) cs1) (device_new p) = Some d0 /\ at_rest p T (settle T d0) /\ length (dv_banks (settle T d0)) = ms_banks p.
Proof using RE.
  intros Hr. destruct RE as (_ & _ & H). destruct (H r Hr) as (d & D & A). pose proof (device_length _ _ _ _ _ D) as L. unfold device_at in D. rewrite first_part in D by lia.
  destruct (run_device p (filter (to_rank r) cs1) (device_new p)) as [d0|]; [|discriminate]. injection D as <-. exists d0. auto.
Qed.
Lemma after_rest r m : (r < ms_ranks p)%nat ->
  match device_at p r cs2 m with
  | Some d2 => exists d1, device_at p r both (m + T) = Some d1 /\ dsim p T m d1 d2
  | None => device_at p r both (m + T) = None
  end.
Proof using RE ND.
  intros Hr. destruct (first_run r Hr) as (d0 & R0 & A & L). pose proof (rest_sim p T _ A L) as S.
  unfold device_at, both. rewrite filter_app, first_part by lia. rewrite filter_later. set (l := filter (fun c => to_rank r c && (cmd_ts c <=? m)) cs2).
  rewrite run_device_cat, R0. rewrite <- (run_settled p T (later T l) d0) by (try lia; intros c Hc; eapply later_ts; exact Hc).
  assert (NL : nondecreasing 0 (map cmd_ts l)) by (apply filter_nondecreasing; exact ND).
  pose proof (run_sim p T l 0 _ _ NL S) as Z. destruct (run_device p l (device_new p)) as [d2|].
  - destruct Z as (d1 & now & Z1 & Z2 & Z3 & Z4). rewrite Z1. cbn [option_map]. eexists. split; [reflexivity|].
    apply (settle_sim p T now m); [|exact Z2]. destruct Z4 as [->|(c & Hc & ->)]; [lia|]. unfold l in Hc. apply filter_In in Hc as [_ Hc]. lia.
  - rewrite Z. reflexivity.
Qed.
Lemma both_legal_rank r : (r < ms_ranks p)%nat -> legal p r cs2 -> legal p r both.
Proof using RE ND.
  intros Hr L2. unfold legal, both in *. rewrite filter_app, run_device_cat. destruct (first_run r Hr) as (d0 & R0 & A & L). rewrite R0, filter_later_all.
  intros H. apply (run_settled_some p T) in H; [|intros c Hc; eapply later_ts; exact Hc].
  assert (NL : nondecreasing 0 (map cmd_ts (filter (to_rank r) cs2))) by (apply filter_nondecreasing; exact ND).
  pose proof (run_sim p T _ 0 _ _ NL (rest_sim p T _ A L)) as Z. destruct (run_device p (filter (to_rank r) cs2) (device_new p)); [|contradiction].
  destruct Z as (d1 & now & Z1 & _). rewrite H in Z1. discriminate.
Qed.
Lemma both_legal : legal_history p cs1 -> legal_history p cs2 -> legal_history p both.
Proof using RE ND.
  intros [A1 A2] [B1 B2]. split.
  - unfold both. apply Forall_app. split; [exact A1|]. apply Forall_map. exact B1.
  - intros r Hr. apply both_legal_rank; auto.
Qed.
(* Everything counted by cycles adds up. *)
Lemma cycles_both r t P : (r < ms_ranks p)%nat -> (forall m d1 d2, dsim p T m d1 d2 -> P d1 = P d2) ->
  cycles_where p r both (T + t) P = cycles_where p r cs1 T P + cycles_where p r cs2 t P.
Proof using RE ND.
  intros Hr HP. unfold cycles_where. rewrite (count_split _ T (T + t)) by lia. replace (T + t - T) with t by lia. f_equal.
  - apply count_below_ext. intros m Hm. rewrite before_rest by lia. reflexivity.
  - apply count_below_ext. intros m Hm. rewrite (N.add_comm T). pose proof (after_rest r (N.of_nat m) Hr) as Z.
    destruct (device_at p r cs2 (N.of_nat m)) as [d2|]; [|rewrite Z; reflexivity]. destruct Z as (d1 & Z1 & Z2). rewrite Z1. eapply HP. exact Z2.
Qed.
Lemma mode_sim k m d1 d2 : dsim p T m d1 d2 -> mode_is k d1 = mode_is k d2.
Proof using. intros [_ M _]. unfold mode_is. now rewrite M. Qed.
Lemma any_busy_sim m d1 d2 : dsim p T m d1 d2 -> existsb busy (dv_banks d1) = existsb busy (dv_banks d2).
Proof using. intros [B _ _]. eapply existsb_sim; [|exact B]. apply busy_sim. Qed.
Lemma nth_sim {A} (R : A -> A -> Prop) l1 l2 : Forall2 R l1 l2 -> forall b, match nth_error l1 b, nth_error l2 b with Some x, Some y => R x y | None, None => True | _, _ => False end.
Proof using. intros F. induction F; intros [|b]; cbn; auto. apply IHF. Qed.
Lemma spec_rank_both r t : (r < ms_ranks p)%nat -> spec_rank p r both (T + t) = cycles_sum (spec_rank p r cs1 T) (spec_rank p r cs2 t).
Proof using RE ND.
  intros Hr. unfold spec_rank, cycles_sum. cbn [cy_act cy_pre cy_pda cy_pdp cy_sref cy_dsm].
  f_equal; apply cycles_both; auto; intros m d1 d2 S; try (apply (mode_sim _ m); exact S);
    unfold rank_acts, rank_idles; rewrite (any_busy_sim m _ _ S), (mode_sim _ m _ _ S); reflexivity.
Qed.
Lemma spec_bank_both r b t : (r < ms_ranks p)%nat -> spec_bank p r b both (T + t) = cycles_sum (spec_bank p r b cs1 T) (spec_bank p r b cs2 t).
Proof using RE ND.
  intros Hr. unfold spec_bank, cycles_sum. cbn [cy_act cy_pre cy_pda cy_pdp cy_sref cy_dsm].
  f_equal; apply cycles_both; auto; intros m d1 d2 S; try (apply (mode_sim _ m); exact S);
    unfold bank_acts, bank_idles; pose proof (ds_banks _ _ _ _ _ S) as F; pose proof (nth_sim _ _ _ F b) as N;
    destruct (nth_error (dv_banks d1) b), (nth_error (dv_banks d2) b); try contradiction; auto; rewrite (busy_sim _ _ _ _ _ N), (mode_sim _ m _ _ S); reflexivity.
Qed.
Lemma standby_sim w I m d1 d2 : dsim p T m d1 d2 -> standby w I d1 = standby w I d2.
Proof using.
  intros [B M _]. unfold standby. rewrite M. assert (E : busy_banks d1 = busy_banks d2); [|rewrite E; reflexivity].
  unfold busy_banks. induction B as [|x y l1 l2 R B IH]; cbn; [reflexivity|]. rewrite (busy_sim _ _ _ _ _ R). destruct (busy y); cbn; congruence.
Qed.
Lemma rows_sim m d1 d2 : dsim p T m d1 d2 -> open_rows d1 = open_rows d2.
Proof using.
  intros [B M _]. unfold open_rows. induction B as [|x y l1 l2 R B IH]; cbn; [reflexivity|].
  assert (E : row_open x = row_open y) by (unfold row_open; rewrite (bs_state _ _ _ _ _ R); now destruct (sb_state y)). rewrite E. destruct (row_open y); cbn; congruence.
Qed.
Lemma rest_rows d : at_rest p T d -> open_rows d = 0%nat.
Proof using. intros (_ & _ & B). unfold open_rows. induction B as [|x l (E & _) B IH]; cbn; [reflexivity|]. unfold row_open at 1. rewrite E. exact IH. Qed.
Lemma charge_both e w I r t : (r < ms_ranks p)%nat -> legal p r cs2 -> (final_time 0 (map cmd_ts cs2) <= t) ->
  (charge p e w I r both (T + t) == charge p e w I r cs1 T + charge p e w I r cs2 t)%Q.
Proof using RE ND.
  intros Hr L2 HF. unfold charge.
  assert (O : (over_cycles p r both (T + t) (standby w I) == over_cycles p r cs1 T (standby w I) + over_cycles p r cs2 t (standby w I))%Q).
  { unfold over_cycles. replace (N.to_nat (T + t)) with (N.to_nat T + N.to_nat t)%nat by lia. rewrite seq_app, qsum_app. cbn [Nat.add].
    apply Qplus_comp.
    - apply qsum_ext. intros n Hn. apply in_seq in Hn. rewrite before_rest by lia. reflexivity.
    - rewrite qsum_shift. apply qsum_ext. intros n Hn. replace (N.of_nat (N.to_nat T + n)) with (N.of_nat n + T) by lia.
      pose proof (after_rest r (N.of_nat n) Hr) as Z. destruct (device_at p r cs2 (N.of_nat n)) as [d2|]; [|rewrite Z; reflexivity].
      destruct Z as (d1 & -> & S). rewrite (standby_sim w I _ _ _ S). reflexivity. }
  assert (C : (qsum (command_charge e w I) (filter (to_rank r) both) == qsum (command_charge e w I) (filter (to_rank r) cs1) + qsum (command_charge e w I) (filter (to_rank r) cs2))%Q).
  { unfold both. rewrite filter_app, filter_later_all, qsum_app. unfold later. rewrite qsum_map. reflexivity. }
  destruct (proj2 (proj2 RE) r Hr) as (d & D & A). pose proof (after_rest r t Hr) as Z. rewrite (N.add_comm T t), D, (rest_rows d A). rewrite (N.add_comm t T), O, C.
  rewrite (N.add_comm t T) in Z.
  destruct (device_at p r cs2 t) as [d2|]; [|rewrite Z; change (qnat 0) with 0%Q; ring]. destruct Z as (d1 & -> & S). rewrite (rows_sim _ _ _ S). change (qnat 0) with 0%Q. ring.
Qed.
Lemma both_rests t : rests p cs2 t -> rests p both (T + t).
Proof using RE ND.
  intros (_ & F2 & R2). pose proof RE as (N1 & F1 & R1). split; [|split].
  - unfold both. apply nondecreasing_cat. split; [exact N1|]. clear - ND F1.
    assert (G : forall l a b, nondecreasing a (map cmd_ts l) -> b <= a + T -> nondecreasing b (map cmd_ts (later T l))).
    { induction l as [|c l IH]; intros a b H L; cbn; [exact Logic.I|]. destruct H as [H1 H2]. split; [cbn; lia|]. apply (IH (cmd_ts c)); [exact H2|]. cbn. lia. }
    apply (G cs2 0); [exact ND|lia].
  - unfold both. rewrite map_app. unfold final_time. rewrite fold_left_app. fold (final_time 0 (map cmd_ts cs1)).
    assert (G : forall l a b, b <= a + T -> fold_left (fun _ t => t) (map cmd_ts (later T l)) b <= fold_left (fun _ t => t) (map cmd_ts l) a + T).
    { induction l as [|c l IH]; intros a b H; cbn; [exact H|]. apply IH. cbn. lia. }
    specialize (G cs2 0 (final_time 0 (map cmd_ts cs1))). unfold final_time in F2 at 1. specialize (G ltac:(lia)). lia.
  - intros r Hr. destruct (R2 r Hr) as (d2 & D2 & M2 & P2 & B2). pose proof (after_rest r t Hr) as Z. rewrite D2 in Z. destruct Z as (d1 & D1 & [S1 S2 S3]).
    exists d1. rewrite (N.add_comm T t). split; [exact D1|]. split; [congruence|]. split; [rewrite S3, P2; reflexivity|].
    clear - S1 B2. revert B2. induction S1 as [|b1 b2 l1 l2 R F IH]; intros B; constructor; inversion B as [|? ? (E1 & E2 & E3 & E4) B']; subst; auto.
    destruct R as [Q1 Q2 Q3 Q4]. rewrite E1 in *. split; [exact Q1|]. split; [|split].
    + intros s Hs. destruct (sb_since b2) as [s2|] eqn:Es.
      * destruct (E2 s2 eq_refl) as [G1 G2]. rewrite Q2 in Hs. injection Hs as <-. split; [lia|exact G2].
      * rewrite Hs in Q2. destruct Q2. split; [lia|assumption].
    + intros x Hx. destruct (sb_pre b2) as [x2|] eqn:Es.
      * specialize (E3 x2 eq_refl). rewrite Q3 in Hx. injection Hx as <-. lia.
      * rewrite Hx in Q3. lia.
    + intros x Hx. destruct (sb_off b2) as [x2|] eqn:Es.
      * specialize (E4 x2 eq_refl). rewrite Q4 in Hx. injection Hx as <-. lia.
      * rewrite Hx in Q4. lia.
Qed.
End Two.
