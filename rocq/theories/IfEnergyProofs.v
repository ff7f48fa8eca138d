From Coq Require Import QArith NArith List Bool Arith Lia.
From Verif Require Import Base Command CoreModel Bits ListFacts StatsModel StatsSpec StatsProofs EnergyModel EnergySpec EnergyProofs IfEnergyModel IfEnergySpec.
Import ListNotations.
Local Open Scope Q_scope.

(* One group of lines, one set of signals. *)
Definition static_q (p : ispec) (l : line) (s : bus_stats) (t : Q) (r : N) : Q :=
  if ln_term l then is_vddq p * is_vddq p / ln_R l * (qn (field_at s (burning (is_std p))) * (t / qn r)) else 0.
Definition close (a b : calc ienergy) : Prop :=
  exists x y, a = Exactly x /\ b = Exactly y /\ forall s, statics x s == statics y s /\ dynamics x s == dynamics y s.
Definition is_val (a : calc ienergy) (cd cs dd ds : Q) : Prop := exists x, a = Exactly x /\ ie_cdyn x == cd /\ ie_cstat x == cs /\ ie_ddyn x == dd /\ ie_dstat x == ds.

Lemma qbool_false q : ~ q == 0 -> Qeq_bool q 0 = false.
Proof. intros H. destruct (Qeq_bool q 0) eqn:E; [|reflexivity]. apply Qeq_bool_eq in E. contradiction. Qed.
Lemma termination_value p l s t r : r <> 0%N -> (ln_term l = true -> ~ ln_R l == 0) ->
  exists q, calcStaticTermination p (ln_term l) s (ln_R l) t r = Exactly q /\ q == static_q p l s t r.
Proof.
  intros Hr HR. unfold calcStaticTermination, static_q. destruct (ln_term l); [|exists 0; split; reflexivity].
  specialize (HR eq_refl). unfold per_beat. destruct (N.eqb_spec r 0) as [->|_]; [congruence|]. cbn [cbind].
  unfold calc_static_energy. rewrite (qbool_false _ HR).
  assert (Q : ~ qn r == 0) by (unfold qn; intros E; unfold inject_Z, Qeq in E; cbn in E; lia).
  destruct (is_std p); cbn [burning field_at]; (eexists; split; [reflexivity|]); field; split; assumption.
Qed.
Lemma controller_value p l s t r : r <> 0%N -> (ln_term l = true -> ~ ln_R l == 0) ->
  is_val (by_controller p l s t r) (ln_E l * qn (z2o s)) (static_q p l s t r) 0 0.
Proof.
  intros Hr HR. unfold by_controller. destruct (termination_value p l s t r Hr HR) as (q & -> & E). cbn [cbind]. eexists; split; [reflexivity|].
  cbn [ie_cdyn ie_cstat ie_ddyn ie_dstat]. unfold calc_dynamic_energy. repeat split; try reflexivity; [ring|exact E].
Qed.
Lemma dram_value p l s t r : r <> 0%N -> (ln_term l = true -> ~ ln_R l == 0) ->
  is_val (by_dram p l s t r) 0 0 (ln_E l * qn (z2o s)) (static_q p l s t r).
Proof.
  intros Hr HR. unfold by_dram. destruct (termination_value p l s t r Hr HR) as (q & -> & E). cbn [cbind]. eexists; split; [reflexivity|].
  cbn [ie_cdyn ie_cstat ie_ddyn ie_dstat]. unfold calc_dynamic_energy. repeat split; try reflexivity; [ring|exact E].
Qed.
Lemma plus_value a b c1 c2 c3 c4 d1 d2 d3 d4 : is_val a c1 c2 c3 c4 -> is_val b d1 d2 d3 d4 -> is_val (plus a b) (c1 + d1) (c2 + d2) (c3 + d3) (c4 + d4).
Proof.
  intros (x & -> & A1 & A2 & A3 & A4) (y & -> & B1 & B2 & B3 & B4). unfold plus. cbn [cbind]. eexists; split; [reflexivity|].
  cbn [ie_add ie_cdyn ie_cstat ie_ddyn ie_dstat]. rewrite A1, A2, A3, A4, B1, B2, B3, B4. repeat split; reflexivity.
Qed.
Lemma zero_value : is_val (Exactly ie_zero) 0 0 0 0.
Proof. eexists; split; [reflexivity|]. repeat split; reflexivity. Qed.

(* The sums over the ranks. *)
Lemma rank_sum_exact f st : forall a, (a + total_over_ranks f st < two64)%N ->
  fold_left (fun a r => u64_add a (f r)) (ss_rank st) a = (a + total_over_ranks f st)%N.
Proof.
  unfold total_over_ranks. induction (ss_rank st) as [|r l IH]; intros a H; cbn [map fold_right fold_left] in *; [lia|].
  rewrite IH; unfold u64_add; rewrite (N.mod_small (a + f r)) by lia; lia.
Qed.
Lemma rank_sum_total f st : (total_over_ranks f st < two64)%N -> rank_sum f st = total_over_ranks f st.
Proof. intros H. unfold rank_sum. rewrite rank_sum_exact; lia. Qed.
Lemma total_mono f g st : (forall r, In r (ss_rank st) -> (f r <= g r)%N) -> (total_over_ranks f st <= total_over_ranks g st)%N.
Proof.
  unfold total_over_ranks. induction (ss_rank st) as [|r l IH]; intros H; cbn [map fold_right]; [lia|].
  specialize (IH (fun r h => H r (or_intror h))). specialize (H r (or_introl eq_refl)). lia.
Qed.
Lemma member_le f st r : In r (ss_rank st) -> (f r <= total_over_ranks f st)%N.
Proof. unfold total_over_ranks. induction (ss_rank st) as [|x l IH]; [easy|]. intros [->|H]; cbn [map fold_right]; [lia|]. specialize (IH H). lia. Qed.
Lemma total_ext f g st : (forall r, In r (ss_rank st) -> f r = g r) -> total_over_ranks f st = total_over_ranks g st.
Proof. intros H. apply N.le_antisymm; apply total_mono; intros r Hr; rewrite H by exact Hr; lia. Qed.
Lemma readcount_total st : (total_over_ranks (bursts Dram) st < two64)%N -> readcount st = total_over_ranks (bursts Dram) st.
Proof.
  intros H. unfold readcount.
  assert (E : total_over_ranks (fun r => u64_add (cs_reads (cs_counter r)) (cs_readAuto (cs_counter r))) st = total_over_ranks (bursts Dram) st).
  { apply total_ext. intros r Hr. apply (member_le (bursts Dram)) in Hr. unfold u64_add. apply N.mod_small. cbn [bursts part_at cs_get] in *. lia. }
  rewrite rank_sum_total; [exact E|]. now rewrite E.
Qed.
Lemma writecount_total st : (total_over_ranks (bursts Controller) st < two64)%N -> writecount st = total_over_ranks (bursts Controller) st.
Proof.
  intros H. unfold writecount.
  assert (E : total_over_ranks (fun r => u64_add (cs_writes (cs_counter r)) (cs_writeAuto (cs_counter r))) st = total_over_ranks (bursts Controller) st).
  { apply total_ext. intros r Hr. apply (member_le (bursts Controller)) in Hr. unfold u64_add. apply N.mod_small. cbn [bursts part_at cs_get] in *. lia. }
  rewrite rank_sum_total; [exact E|]. now rewrite E.
Qed.
Lemma sub_exact a b : (a < two64)%N -> (b <= a)%N -> u64_sub a b = (a - b)%N.
Proof. intros A B. unfold u64_sub. rewrite (N.mod_small b) by lia. replace (a + two64 - b)%N with (a - b + 1 * two64)%N by lia. rewrite N.mod_add by discriminate. apply N.mod_small. lia. Qed.
Lemma amble_value p st : is_std p = DDR4 -> usable p -> amble_ok p st ->
  is_val (ambleEnergy p st) (amble_dynamic p st Controller) (amble_static p st Controller) (amble_dynamic p st Dram) (amble_static p st Dram).
Proof.
  intros S U A. specialize (A S). destruct (A Controller) as (W1 & W2 & W3). destruct (A Dram) as (R1 & R2 & R3).
  unfold ambleEnergy, amble_dynamic, amble_static. rewrite S. cbv zeta.
  rewrite (readcount_total _ R1), (writecount_total _ W1).
  change (fun r => pp_ws (cs_prepos r)) with (seamless Controller). change (fun r => pp_rs (cs_prepos r)) with (seamless Dram).
  rewrite (rank_sum_total (seamless Controller)) by lia. rewrite (rank_sum_total (seamless Dram)) by lia.
  rewrite !sub_exact by assumption. fold (with_ambles Controller st) (with_ambles Dram st).
  change (dqs_pairs p) with (pairs p).
  assert (MW : u64_mul (u64_mul (pairs p) (am_wz2o (is_ambles p))) (with_ambles Controller st) = (pairs p * rises p Controller * with_ambles Controller st)%N).
  { unfold u64_mul. rewrite N.mul_mod_idemp_l by discriminate. now apply N.mod_small. }
  assert (MR : u64_mul (u64_mul (pairs p) (am_rz2o (is_ambles p))) (with_ambles Dram st) = (pairs p * rises p Dram * with_ambles Dram st)%N).
  { unfold u64_mul. rewrite N.mul_mod_idemp_l by discriminate. now apply N.mod_small. }
  rewrite MW, MR.
  assert (UW : ln_term (im_wdqs (is_imp p)) = true -> ~ ln_R (im_wdqs (is_imp p)) == 0) by (apply (U WDQS); rewrite S; cbn; tauto).
  assert (UR : ln_term (im_rdqs (is_imp p)) = true -> ~ ln_R (im_rdqs (is_imp p)) == 0) by (apply (U RDQS); rewrite S; cbn; tauto).
  cbn [strobe impedance lows]. unfold calc_static_energy, calc_dynamic_energy.
  destruct (ln_term (im_wdqs (is_imp p))) eqn:TW; destruct (ln_term (im_rdqs (is_imp p))) eqn:TR;
    rewrite ?(qbool_false _ (UW eq_refl)), ?(qbool_false _ (UR eq_refl)); unfold plus; cbn [cbind]; (eexists; split; [reflexivity|]);
    cbn [ie_add ie_zero ie_cdyn ie_cstat ie_ddyn ie_dstat]; repeat split; try reflexivity; try ring; field; auto.
Qed.

Ltac group_facts p U S g :=
  let r := fresh "r" in let R := fresh "R" in
  assert (r : rate p g <> 0%N) by (apply (U g); rewrite S; cbn; tauto);
  assert (R : ln_term (impedance p g) = true -> ~ ln_R (impedance p g) == 0) by (apply (U g); rewrite S; cbn; tauto);
  cbn [rate] in r; cbn [impedance] in R; rewrite ?S in r.

Lemma is_val_eq a x1 x2 x3 x4 y1 y2 y3 y4 : is_val a x1 x2 x3 x4 -> x1 == y1 -> x2 == y2 -> x3 == y3 -> x4 == y4 -> is_val a y1 y2 y3 y4.
Proof. intros (x & -> & A & B & C & D) E1 E2 E3 E4. exists x. rewrite <- E1, <- E2, <- E3, <- E4. tauto. Qed.

Lemma flag_value p l s t r : is_std p = DDR5 -> r <> 0%N -> (ln_term l = true -> ~ ln_R l == 0) ->
  (ln_term l = true \/ ln_R l == 0 \/ zeroes s = 0%N) ->
  (ln_term (as_flag l) = true -> ~ ln_R (as_flag l) == 0) /\ static_q p (as_flag l) s t r == static_q p l s t r.
Proof.
  intros S Hr HR H. unfold static_q, as_flag. rewrite S. cbn [ln_term ln_R burning field_at]. split.
  - intros E F. apply Qeq_bool_iff in F. rewrite F in E. discriminate.
  - destruct (Qeq_bool (ln_R l) 0) eqn:E; cbn [negb].
    + apply Qeq_bool_iff in E. destruct (ln_term l); [exfalso; now apply HR|reflexivity].
    + destruct (ln_term l); [reflexivity|]. destruct H as [H|[H|H]]; [discriminate| |].
      * apply Qeq_bool_iff in H. congruence.
      * rewrite H. change (qn 0) with 0. unfold Qdiv. ring.
Qed.

Lemma flag_dram_value p l s t r : is_std p = DDR5 -> r <> 0%N -> (ln_term l = true -> ~ ln_R l == 0) -> (ln_term l = true \/ ln_R l == 0 \/ zeroes s = 0%N) ->
  is_val (by_dram p (as_flag l) s t r) 0 0 (ln_E l * qn (z2o s)) (static_q p l s t r).
Proof.
  intros S Hr HR H. destruct (flag_value p l s t r S Hr HR H) as (F & E). eapply is_val_eq; [apply dram_value; [exact Hr|exact F]|..]; try reflexivity. exact E.
Qed.
Lemma flag_controller_value p l s t r : is_std p = DDR5 -> r <> 0%N -> (ln_term l = true -> ~ ln_R l == 0) -> (ln_term l = true \/ ln_R l == 0 \/ zeroes s = 0%N) ->
  is_val (by_controller p (as_flag l) s t r) (ln_E l * qn (z2o s)) (static_q p l s t r) 0 0.
Proof.
  intros S Hr HR H. destruct (flag_value p l s t r S Hr HR H) as (F & E). eapply is_val_eq; [apply controller_value; [exact Hr|exact F]|..]; try reflexivity. exact E.
Qed.

Ltac pieces :=
  repeat first [apply amble_value; assumption|apply flag_dram_value; assumption|apply flag_controller_value; assumption
    |apply controller_value; assumption|apply dram_value; assumption|apply controller_value; [discriminate|assumption]|apply zero_value|eapply plus_value].
Ltac closed S :=
  eapply is_val_eq;
  [unfold calculateEnergy; rewrite S; cbn [fold_left]; unfold calcClockEnergy, calcDQSEnergy, calcDQEnergyTogglingRate, calcDQEnergy, calcCAEnergy, calcDBIEnergy; rewrite S; cbv zeta; pieces|..];
  unfold dynamic_energy, static_energy, amble_static, amble_dynamic; rewrite S; cbn [groups filter driven_by driver]; rewrite ?qsum_cons, ?qsum_nil; unfold static_of, dynamic_of, static_q, beat, rate; rewrite ?S;
  cbn [signals impedance burning count_at bus_at field_at]; rewrite ?qsum_cons, ?qsum_nil; cbn [bus_at field_at];
  repeat match goal with |- context [if ?c then _ else _] => destruct c end; ring.
Theorem energy_closed p st : usable p -> amble_ok p st -> toggling_ok p st ->
  exists e, calculateEnergy p st = Exactly e /\ forall s, statics e s == static_energy p st s /\ dynamics e s == dynamic_energy p st s.
Proof.
  intros U A T.
  enough (is_val (calculateEnergy p st) (dynamic_energy p st Controller) (static_energy p st Controller) (dynamic_energy p st Dram) (static_energy p st Dram)) as (e & E & H1 & H2 & H3 & H4).
  { exists e. split; [exact E|]. intros []; cbn [statics dynamics]; tauto. }
  destruct (is_std p) eqn:S.
  - group_facts p U S CK. group_facts p U S CA. group_facts p U S RDQ. group_facts p U S WDQ. group_facts p U S RDQS. group_facts p U S WDQS. group_facts p U S RDBI. group_facts p U S WDBI.
    closed S.
  - group_facts p U S CK. group_facts p U S CA. group_facts p U S RDQ. group_facts p U S WDQ. group_facts p U S RDQS. group_facts p U S WDQS.
    destruct (T S) as (T1 & T2). cbn [count_at bus_at field_at] in T1, T2. closed S.
  - group_facts p U S CK. group_facts p U S CA. group_facts p U S RDQ. group_facts p U S WDQ. group_facts p U S RDQS. group_facts p U S WDQS. group_facts p U S RDBI. group_facts p U S WDBI.
    closed S.
  - group_facts p U S CK. group_facts p U S WCK. group_facts p U S CA. group_facts p U S RDQ. group_facts p U S WDQ. group_facts p U S RDQS. group_facts p U S RDBI. group_facts p U S WDBI.
    closed S.
  - group_facts p U S CK. group_facts p U S WCK. group_facts p U S CA. group_facts p U S RDQ. group_facts p U S WDQ. group_facts p U S RDQS.
    closed S.
Qed.
