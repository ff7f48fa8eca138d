(* The interface calculation for any statistics. *)
From Coq Require Import QArith NArith ZArith List Bool Arith Lia.
From Verif Require Import Base Command CoreModel Bits ListFacts StatsModel StatsSpec StatsProofs EnergyModel EnergySpec EnergyProofs IfEnergyModel IfEnergySpec IfEnergyProofs IfEnergyMore IfExactSpec.
Import ListNotations.
Local Open Scope Q_scope.
Ltac Zify.zify_post_hook ::= idtac.

Lemma rank_sum_mod f st : forall a, (fold_left (fun a r => u64_add a (f r)) (ss_rank st) a mod two64 = (a + total_over_ranks f st) mod two64)%N.
Proof.
  unfold total_over_ranks. induction (ss_rank st) as [|r l IH]; intros a; cbn [map fold_right fold_left]; [now rewrite N.add_0_r|].
  rewrite IH. unfold u64_add. rewrite N.add_mod_idemp_l by discriminate. f_equal. lia.
Qed.
Lemma total_mod f g st : (forall r, f r mod two64 = g r mod two64)%N -> (total_over_ranks f st mod two64 = total_over_ranks g st mod two64)%N.
Proof.
  intros H. unfold total_over_ranks. induction (ss_rank st) as [|r l IH]; cbn [map fold_right]; [reflexivity|].
  rewrite N.add_mod by discriminate. rewrite IH, H. now rewrite <- N.add_mod by discriminate.
Qed.
Lemma sub_mod a b : u64_sub a b = Z.to_N ((Z.of_N a - Z.of_N b) mod 2 ^ 64).
Proof.
  unfold u64_sub. pose proof (N.mod_lt b two64 ltac:(discriminate)) as L. apply N2Z.inj.
  rewrite Z2N.id by (apply Z.mod_pos_bound; reflexivity).
  rewrite N2Z.inj_mod, N2Z.inj_sub by lia. rewrite N2Z.inj_add, N2Z.inj_mod. change (Z.of_N two64) with (2 ^ 64)%Z.
  replace (Z.of_N a + 2 ^ 64 - Z.of_N b mod 2 ^ 64)%Z with (Z.of_N a - Z.of_N b mod 2 ^ 64 + 1 * 2 ^ 64)%Z by lia.
  rewrite Z.mod_add by discriminate. apply Zminus_mod_idemp_r.
Qed.
Lemma sub_same a b c d : (a mod two64 = c mod two64)%N -> (b mod two64 = d mod two64)%N -> u64_sub a b = Z.to_N ((Z.of_N c - Z.of_N d) mod 2 ^ 64).
Proof.
  intros A B. rewrite sub_mod. f_equal. rewrite Zminus_mod.
  apply (f_equal Z.of_N) in A, B. rewrite !N2Z.inj_mod in A, B. change (Z.of_N two64) with (2 ^ 64)%Z in A, B.
  rewrite A, B. symmetry. apply Zminus_mod.
Qed.
Lemma amble_bursts_write st : u64_sub (writecount st) (rank_sum (fun r => pp_ws (cs_prepos r)) st) = amble_bursts Controller st.
Proof.
  apply sub_same; unfold writecount, rank_sum; rewrite rank_sum_mod, N.add_0_l; apply total_mod; intros r.
  - cbn [bursts part_at cs_get]. unfold u64_add. now rewrite N.mod_mod by discriminate.
  - reflexivity.
Qed.
Lemma amble_bursts_read st : u64_sub (readcount st) (rank_sum (fun r => pp_rs (cs_prepos r)) st) = amble_bursts Dram st.
Proof.
  apply sub_same; unfold readcount, rank_sum; rewrite rank_sum_mod, N.add_0_l; apply total_mod; intros r.
  - cbn [bursts part_at cs_get]. unfold u64_add. now rewrite N.mod_mod by discriminate.
  - reflexivity.
Qed.
(* One group of lines: a value, or a division by zero. *)
Definition fit (l : line) (r : N) : Prop := ln_term l = true -> r <> 0%N /\ ~ ln_R l == 0.
Lemma termination_fit p l s t r : fit l r ->
  exists q, calcStaticTermination p (ln_term l) s (ln_R l) t r = Exactly q /\ q == static_q p l s t r.
Proof.
  intros F. destruct (ln_term l) eqn:T.
  - destruct (F T) as [A B]. rewrite <- T. now apply termination_value.
  - exists 0. unfold static_q. rewrite T. split; reflexivity.
Qed.
Lemma termination_unfit p l s t r : ln_term l = true -> r = 0%N \/ ln_R l == 0 -> calcStaticTermination p (ln_term l) s (ln_R l) t r = NotFinite.
Proof.
  intros T H. unfold calcStaticTermination, per_beat. rewrite T. destruct (N.eqb_spec r 0) as [E|E]; [reflexivity|]. destruct H as [H|H]; [contradiction|].
  cbn [cbind]. unfold calc_static_energy. apply Qeq_bool_iff in H. now rewrite H.
Qed.
Lemma fit_dec l r : fit l r \/ (ln_term l = true /\ (r = 0%N \/ ln_R l == 0)).
Proof.
  unfold fit. destruct (ln_term l); [|left; discriminate]. destruct (N.eq_dec r 0) as [->|R]; [right; auto|].
  destruct (Qeq_dec (ln_R l) 0) as [E|E]; [right; auto|left; auto].
Qed.
Lemma controller_fit p l s t r : fit l r -> is_val (by_controller p l s t r) (ln_E l * qn (z2o s)) (static_q p l s t r) 0 0.
Proof.
  intros F. unfold by_controller. destruct (termination_fit p l s t r F) as (q & -> & E). cbn [cbind]. eexists; split; [reflexivity|].
  cbn [ie_cdyn ie_cstat ie_ddyn ie_dstat]. unfold calc_dynamic_energy. repeat split; try reflexivity; [ring|exact E].
Qed.
Lemma dram_fit p l s t r : fit l r -> is_val (by_dram p l s t r) 0 0 (ln_E l * qn (z2o s)) (static_q p l s t r).
Proof.
  intros F. unfold by_dram. destruct (termination_fit p l s t r F) as (q & -> & E). cbn [cbind]. eexists; split; [reflexivity|].
  cbn [ie_cdyn ie_cstat ie_ddyn ie_dstat]. unfold calc_dynamic_energy. repeat split; try reflexivity; [ring|exact E].
Qed.
Definition settled (a : calc ienergy) (P : Prop) : Prop := (P -> exists e, a = Exactly e) /\ (~ P -> a = NotFinite).
Lemma controller_settled p l s t r : settled (by_controller p l s t r) (fit l r).
Proof.
  split; intros H.
  - destruct (controller_fit p l s t r H) as (e & E & _). eauto.
  - destruct (fit_dec l r) as [F|[T F]]; [contradiction|]. unfold by_controller. now rewrite (termination_unfit p l s t r T F).
Qed.
Lemma dram_settled p l s t r : settled (by_dram p l s t r) (fit l r).
Proof.
  split; intros H.
  - destruct (dram_fit p l s t r H) as (e & E & _). eauto.
  - destruct (fit_dec l r) as [F|[T F]]; [contradiction|]. unfold by_dram. now rewrite (termination_unfit p l s t r T F).
Qed.
Lemma zero_settled : settled (Exactly ie_zero) True.
Proof. split; [eauto|intros H; now destruct H]. Qed.
Lemma plus_settled a b P Q : P \/ ~ P -> settled a P -> settled b Q -> settled (plus a b) (P /\ Q).
Proof.
  intros D [A1 A2] [B1 B2]. unfold plus. split.
  - intros [H1 H2]. destruct (A1 H1) as (x & ->), (B1 H2) as (y & ->). cbn [cbind]. eauto.
  - intros N. destruct D as [H|H].
    + destruct (A1 H) as (x & ->). cbn [cbind]. rewrite B2 by tauto. reflexivity.
    + rewrite A2 by exact H. reflexivity.
Qed.
Lemma settled_iff a P Q : settled a P -> (P <-> Q) -> settled a Q.
Proof. unfold settled. intros [A B] E. rewrite <- E. auto. Qed.
Lemma fit_or l r : fit l r \/ ~ fit l r.
Proof. destruct (fit_dec l r) as [F|[T F]]; [now left|]. right. intros G. destruct (G T). tauto. Qed.

Definition amble_part (p : ispec) (l : line) (zero : Q) (rise n : N) (mk : Q -> Q -> ienergy) : calc ienergy :=
  if ln_term l then
    s <~ calc_static_energy DDR4 (qn (dqs_pairs p) * zero * qn n) (ln_R l) (is_tCK p) (is_vddq p) ;;
    Exactly (mk (calc_dynamic_energy (u64_mul (u64_mul (dqs_pairs p) rise) n) (ln_E l)) s)
  else Exactly ie_zero.
Definition resistive (l : line) : Prop := ln_term l = true -> ~ ln_R l == 0.
Lemma resistive_or l : resistive l \/ ~ resistive l.
Proof. unfold resistive. destruct (ln_term l); [|left; discriminate]. destruct (Qeq_dec (ln_R l) 0); [right|left]; auto. Qed.
Lemma amble_settled p l zero rise n mk : settled (amble_part p l zero rise n mk) (resistive l).
Proof.
  unfold amble_part, resistive. split; intros H.
  - destruct (ln_term l); [|eauto]. unfold calc_static_energy. rewrite (qbool_false _ (H eq_refl)). cbn [cbind]. eauto.
  - destruct (ln_term l); [|exfalso; apply H; discriminate]. unfold calc_static_energy. destruct (Qeq_dec (ln_R l) 0) as [E|E]; [|exfalso; auto].
    apply Qeq_bool_iff in E. now rewrite E.
Qed.
Lemma ambles_settled p st : settled (ambleEnergy p st) (resistive (im_wdqs (is_imp p)) /\ resistive (im_rdqs (is_imp p))).
Proof.
  exact (plus_settled _ _ _ _ (resistive_or _) (amble_settled p (im_wdqs (is_imp p)) _ _ _ _) (amble_settled p (im_rdqs (is_imp p)) _ _ _ _)).
Qed.
Lemma charged_ambles p st : is_std p = DDR4 -> fit (im_wdqs (is_imp p)) (is_dr p) -> fit (im_rdqs (is_imp p)) (is_dr p) ->
  is_val (ambleEnergy p st) (charged_amble_dynamic p st Controller) (charged_amble_static p st Controller) (charged_amble_dynamic p st Dram) (charged_amble_static p st Dram).
Proof.
  intros S FW FR. unfold ambleEnergy, charged_amble_dynamic, charged_amble_static. rewrite S. cbv zeta.
  rewrite amble_bursts_write, amble_bursts_read. change (dqs_pairs p) with (pairs p).
  assert (MW : forall n, u64_mul (u64_mul (pairs p) (am_wz2o (is_ambles p))) n = ((pairs p * rises p Controller * n) mod 2 ^ 64)%N).
  { intros n. unfold u64_mul. now rewrite N.mul_mod_idemp_l by discriminate. }
  assert (MR : forall n, u64_mul (u64_mul (pairs p) (am_rz2o (is_ambles p))) n = ((pairs p * rises p Dram * n) mod 2 ^ 64)%N).
  { intros n. unfold u64_mul. now rewrite N.mul_mod_idemp_l by discriminate. }
  rewrite MW, MR.
  assert (UW : ln_term (im_wdqs (is_imp p)) = true -> ~ ln_R (im_wdqs (is_imp p)) == 0) by (intros T; apply (FW T)).
  assert (UR : ln_term (im_rdqs (is_imp p)) = true -> ~ ln_R (im_rdqs (is_imp p)) == 0) by (intros T; apply (FR T)).
  cbn [strobe impedance lows]. unfold calc_static_energy, calc_dynamic_energy.
  generalize ((pairs p * rises p Controller * amble_bursts Controller st) mod 2 ^ 64)%N ((pairs p * rises p Dram * amble_bursts Dram st) mod 2 ^ 64)%N (amble_bursts Controller st) (amble_bursts Dram st).
  intros n1 n2 m1 m2.
  destruct (ln_term (im_wdqs (is_imp p))) eqn:TW; destruct (ln_term (im_rdqs (is_imp p))) eqn:TR;
    rewrite ?(qbool_false _ (UW eq_refl)), ?(qbool_false _ (UR eq_refl)); unfold plus; cbn [cbind]; (eexists; split; [reflexivity|]);
    cbn [ie_add ie_zero ie_cdyn ie_cstat ie_ddyn ie_dstat]; repeat split; try reflexivity; try ring; field; auto.
Qed.

Definition loose (l : line) (r : N) : Prop := ln_term l = true \/ Qeq_bool (ln_R l) 0 = false -> r <> 0%N /\ ~ ln_R l == 0.
Lemma loose_flag l r : loose l r -> fit (as_flag l) r.
Proof. unfold loose, fit, as_flag. cbn [ln_term ln_R]. intros H E. apply H. right. now destruct (Qeq_bool (ln_R l) 0). Qed.
Lemma loose_fit l r : loose l r <-> fit l r /\ fit (as_flag l) r.
Proof.
  split; [intros H; split; [intros E; apply H; auto|now apply loose_flag]|].
  unfold loose, fit, as_flag. cbn [ln_term ln_R]. intros [A B] [E|E]; [auto|]. apply B. now rewrite E.
Qed.
Lemma flag_static p l s t r : is_std p = DDR5 -> loose l r ->
  static_q p (as_flag l) s t r == static_q p l s t r +
    (if ln_term l || Qeq_bool (ln_R l) 0 then 0 else is_vddq p * is_vddq p / ln_R l * (qn (zeroes s) * (t / qn r))).
Proof.
  intros S H. unfold static_q, as_flag. rewrite S. cbn [ln_term ln_R burning field_at].
  destruct (Qeq_bool (ln_R l) 0) eqn:E; cbn [negb orb].
  - apply Qeq_bool_iff in E. destruct (ln_term l) eqn:T; [exfalso; destruct H; auto|reflexivity].
  - destruct (ln_term l); cbn [orb]; ring.
Qed.
Lemma flag_dram p l s t r : is_std p = DDR5 -> loose l r ->
  is_val (by_dram p (as_flag l) s t r) 0 0 (ln_E l * qn (z2o s)) (static_q p l s t r +
    (if ln_term l || Qeq_bool (ln_R l) 0 then 0 else is_vddq p * is_vddq p / ln_R l * (qn (zeroes s) * (t / qn r)))).
Proof. intros S H. eapply is_val_eq; [apply dram_fit; now apply loose_flag|..]; try reflexivity. now apply flag_static. Qed.
Lemma flag_controller p l s t r : is_std p = DDR5 -> loose l r ->
  is_val (by_controller p (as_flag l) s t r) (ln_E l * qn (z2o s)) (static_q p l s t r +
    (if ln_term l || Qeq_bool (ln_R l) 0 then 0 else is_vddq p * is_vddq p / ln_R l * (qn (zeroes s) * (t / qn r)))) 0 0.
Proof. intros S H. eapply is_val_eq; [apply controller_fit; now apply loose_flag|..]; try reflexivity. now apply flag_static. Qed.

(* The groups of a standard. *)
Lemma computable_fit p g : computable p -> In g (groups (is_std p)) -> fit (impedance p g) (rate p g).
Proof. intros C I T. apply (C g I). unfold divides. now rewrite T. Qed.
Lemma computable_loose p g : is_std p = DDR5 -> g = RDQ \/ g = WDQ -> computable p -> loose (impedance p g) (rate p g).
Proof.
  intros S D C T. apply (C g); [rewrite S; destruct D as [-> | ->]; cbn; tauto|]. unfold divides. rewrite S. destruct T as [-> | E]; [reflexivity|].
  destruct D as [-> | ->]; rewrite E; apply orb_true_r.
Qed.
Ltac fact p C S g :=
  let F := fresh "F" in
  assert (F : fit (impedance p g) (rate p g)) by (apply (computable_fit p g C); rewrite S; cbn; tauto);
  cbn [rate impedance] in F; rewrite ?S in F.
Ltac parts :=
  repeat first [apply charged_ambles; assumption|apply flag_dram; assumption|apply flag_controller; assumption
    |apply controller_fit; assumption|apply dram_fit; assumption|apply zero_value|eapply plus_value].
Ltac exactly S :=
  eapply is_val_eq;
  [unfold calculateEnergy; rewrite S; cbn [fold_left]; unfold calcClockEnergy, calcDQSEnergy, calcDQEnergyTogglingRate, calcDQEnergy, calcCAEnergy, calcDBIEnergy; rewrite S; cbv zeta; parts|..];
  unfold charged_dynamic, charged_static, charged_amble_static, charged_amble_dynamic, stray; rewrite S; cbn [groups filter driven_by driver]; rewrite ?qsum_cons, ?qsum_nil; unfold static_of, dynamic_of, static_q, beat, rate; rewrite ?S;
  cbn [signals impedance burning count_at bus_at field_at data_lines estimate]; rewrite ?qsum_cons, ?qsum_nil; cbn [bus_at field_at]; cbv zeta;
  repeat match goal with |- context [if ?c then _ else _] => destruct c end; ring.

Theorem energy_exact p st : computable p ->
  exists e, calculateEnergy p st = Exactly e /\ forall s, statics e s == charged_static p st s /\ dynamics e s == charged_dynamic p st s.
Proof.
  intros U.
  enough (is_val (calculateEnergy p st) (charged_dynamic p st Controller) (charged_static p st Controller) (charged_dynamic p st Dram) (charged_static p st Dram)) as (e & E & H1 & H2 & H3 & H4).
  { exists e. split; [exact E|]. intros []; cbn [statics dynamics]; tauto. }
  destruct (is_std p) eqn:S.
  - fact p U S CK. fact p U S CA. fact p U S RDQ. fact p U S WDQ. fact p U S RDQS. fact p U S WDQS. fact p U S RDBI. fact p U S WDBI.
    exactly S.
  - fact p U S CK. fact p U S CA. fact p U S RDQ. fact p U S WDQ. fact p U S RDQS. fact p U S WDQS.
    pose proof (computable_loose p RDQ S (or_introl eq_refl) U) as L1. pose proof (computable_loose p WDQ S (or_intror eq_refl) U) as L2. cbn [rate impedance] in L1, L2.
    exactly S.
  - fact p U S CK. fact p U S CA. fact p U S RDQ. fact p U S WDQ. fact p U S RDQS. fact p U S WDQS. fact p U S RDBI. fact p U S WDBI.
    exactly S.
  - fact p U S CK. fact p U S WCK. fact p U S CA. fact p U S RDQ. fact p U S WDQ. fact p U S RDQS. fact p U S RDBI. fact p U S WDBI.
    exactly S.
  - fact p U S CK. fact p U S WCK. fact p U S CA. fact p U S RDQ. fact p U S WDQ. fact p U S RDQS.
    exactly S.
Qed.

(* A result that is no finite number exactly when there is a division by zero. *)
Lemma and_or P Q : P \/ ~ P -> Q \/ ~ Q -> P /\ Q \/ ~ (P /\ Q).
Proof. tauto. Qed.
Lemma true_or : True \/ ~ True.
Proof. now left. Qed.
Ltac decides := repeat first [apply true_or|apply fit_or|apply resistive_or|apply and_or].
Ltac settle :=
  repeat first [apply ambles_settled|apply controller_settled|apply dram_settled|apply zero_settled
    |eapply plus_settled; [shelve|..]].
Definition fits (p : ispec) (g : group) : Prop := fit (impedance p g) (rate p g).
Definition all_fit (p : ispec) : Prop :=
  (forall g, In g (groups (is_std p)) -> fits p g) /\
  (is_std p = DDR5 -> fit (as_flag (im_rdq (is_imp p))) (is_dr p) /\ fit (as_flag (im_wdq (is_imp p))) (is_dr p)).
Lemma fit_resistive l r : fit l r -> resistive l.
Proof. intros F T. apply (F T). Qed.
Ltac have p S H g :=
  let F := fresh "F" in
  assert (F : fits p g) by (apply H; rewrite S; cbn; tauto);
  unfold fits in F; cbn [rate impedance] in F; rewrite ?S in F; pose proof (fit_resistive _ _ F).
Ltac back p S :=
  let H := fresh "H" in
  intros H; split;
  [ let g := fresh "g" in let I := fresh "I" in
    intros g I; rewrite S in I; destruct g; cbn in I; try (exfalso; intuition discriminate); unfold fits; cbn [rate impedance]; rewrite ?S; tauto
  | rewrite ?S; intros; try discriminate; tauto].
Lemma calculation_settled p st : settled (calculateEnergy p st) (all_fit p).
Proof.
  unfold all_fit. destruct (is_std p) eqn:S.
  all: (eapply settled_iff; [unfold calculateEnergy; rewrite S; cbn [fold_left]; unfold calcClockEnergy, calcDQSEnergy, calcDQEnergyTogglingRate, calcDQEnergy, calcCAEnergy, calcDBIEnergy; rewrite S; cbv zeta; settle|split; rewrite <- S; [back p S|intros [H K]]]).
  Unshelve. all: try decides.
  - have p S H CK. have p S H CA. have p S H RDQ. have p S H WDQ. have p S H RDQS. have p S H WDQS. have p S H RDBI. have p S H WDBI. tauto.
  - specialize (K eq_refl). have p S H CK. have p S H CA. have p S H RDQ. have p S H WDQ. have p S H RDQS. have p S H WDQS. tauto.
  - have p S H CK. have p S H CA. have p S H RDQ. have p S H WDQ. have p S H RDQS. have p S H WDQS. have p S H RDBI. have p S H WDBI. tauto.
  - have p S H CK. have p S H WCK. have p S H CA. have p S H RDQ. have p S H WDQ. have p S H RDQS. have p S H RDBI. have p S H WDBI. tauto.
  - have p S H CK. have p S H WCK. have p S H CA. have p S H RDQ. have p S H WDQ. have p S H RDQS. tauto.
Qed.
Lemma computable_all p : computable p <-> all_fit p.
Proof.
  unfold all_fit. split.
  - intros C. split; [intros g I; now apply computable_fit|]. intros S.
    split; apply loose_flag; [exact (computable_loose p RDQ S (or_introl eq_refl) C)|exact (computable_loose p WDQ S (or_intror eq_refl) C)].
  - intros [H K] g I D. unfold divides in D. apply orb_prop in D as [D|D]; [exact (H g I D)|].
    destruct (is_std p) eqn:S; try discriminate. destruct (K eq_refl) as [K1 K2].
    destruct g; try discriminate; cbn [rate impedance] in *; [apply K1|apply K2]; exact D.
Qed.
Lemma each_or p l : (forall g, In g l -> fits p g) \/ ~ (forall g, In g l -> fits p g).
Proof.
  induction l as [|g l IH]; [left; intros g []|].
  destruct (fit_or (impedance p g) (rate p g)) as [F|F]; [|right; intros H; apply F, H; now left].
  destruct IH as [IH|IH]; [left; intros x [<- | I]; [exact F|auto]|right; intros H; apply IH; intros x I; apply H; now right].
Qed.
Lemma computable_or p : computable p \/ ~ computable p.
Proof.
  rewrite computable_all. unfold all_fit. apply and_or; [apply each_or|].
  destruct (is_std p); try (left; intros; discriminate).
  destruct (fit_or (as_flag (im_rdq (is_imp p))) (is_dr p)), (fit_or (as_flag (im_wdq (is_imp p))) (is_dr p)); tauto.
Qed.
Theorem energy_finite p st : ((exists e, calculateEnergy p st = Exactly e) <-> computable p) /\ (calculateEnergy p st = NotFinite <-> ~ computable p).
Proof.
  destruct (calculation_settled p st) as [A B]. rewrite <- computable_all in A, B. destruct (computable_or p) as [D|D].
  - destruct (A D) as (e & E). split; split; intros H; eauto; try congruence; contradiction.
  - specialize (B D). split; split; intros H; eauto; try contradiction. destruct H; congruence.
Qed.

(* Consequences. *)
Lemma usable_computable p : usable p -> computable p.
Proof.
  intros U g I D. destruct (U g I) as [R L]. split; [exact R|]. unfold divides in D. apply orb_prop in D as [D|D]; [auto|].
  intros E. apply Qeq_bool_iff in E. destruct (is_std p), g; try discriminate; rewrite E in D; discriminate.
Qed.

(* Statistics without estimates are not affected by the flag. *)
Lemma stray_none p st s : toggling_ok p st -> stray p st s == 0.
Proof.
  intros T. unfold stray. destruct (is_std p) eqn:S; try reflexivity. destruct (T S) as [T1 T2].
  destruct s; cbn [data_lines impedance estimate]; cbv zeta.
  - destruct T2 as [-> | [E|E]]; [reflexivity| |].
    + apply Qeq_bool_iff in E. rewrite E, orb_true_r. reflexivity.
    + rewrite E. destruct (_ || _); [reflexivity|]. change (qn 0) with 0. ring.
  - destruct T1 as [-> | [E|E]]; [reflexivity| |].
    + apply Qeq_bool_iff in E. rewrite E, orb_true_r. reflexivity.
    + rewrite E. destruct (_ || _); [reflexivity|]. change (qn 0) with 0. ring.
Qed.
(* How far the static energy of a side is from what Ohm's law gives. *)
Theorem surplus p st s e : computable p -> is_std p <> DDR4 -> calculateEnergy p st = Exactly e ->
  statics e s == static_energy p st s + stray p st s.
Proof.
  intros C N E. destruct (energy_exact p st C) as (e' & E' & H). rewrite E in E'. injection E' as <-. destruct (H s) as [-> _].
  unfold charged_static, static_energy, charged_amble_static, amble_static. destruct (is_std p); try congruence; ring.
Qed.
(* Witnesses. *)
Definition open_line : line := mkLine false 50 3.
Definition open_spec : ispec := mkIspec DDR5 (1#2) 1 1 2 2 8 (mkImp open_line open_line open_line open_line open_line open_line open_line open_line open_line) (mkAmbles 0 0 0 0).
Lemma open_case : computable open_spec /\ stray open_spec (ex_istats 6) Dram == charged_static open_spec (ex_istats 6) Dram /\ ~ stray open_spec (ex_istats 6) Dram == 0.
Proof.
  split; [|split].
  - intros g I _. destruct g; cbn; split; discriminate.
  - vm_compute. reflexivity.
  - vm_compute. discriminate.
Qed.
Definition more_seamless : sim_stats :=
  mkSim stats0 stats0 stats0 stats0 stats0 stats0 stats0 stats0 stats0 stats0 stats0
    [cycle_stats0] [mkCS (mkCstats 0 0 3 2 0 0 0 0 0 1 1) cy_zero (mkPrepos 0 0 0 0 7 1)].
Definition shorted_spec : ispec := mkIspec DDR4 (1#2) 1 1 2 2 8 (mkImp open_line open_line (mkLine true 0 1) open_line open_line open_line open_line open_line open_line) (mkAmbles 0 0 0 0).
Lemma wraps_case : computable (ex_ispec DDR4 true) /\ amble_bursts Dram more_seamless = 18446744073709551613%N /\ amble_bursts Dram (ex_istats 6) = 2%N.
Proof. split; [apply usable_computable, ex_usable|]. split; vm_compute; reflexivity. Qed.
Lemma finite_case : (forall s, computable (ex_ispec s true)) /\ ~ computable shorted_spec.
Proof.
  split; [intros s; apply usable_computable, ex_usable|]. intros C. destruct (C CA) as [_ H]; [cbn; tauto|reflexivity|]. apply H. reflexivity.
Qed.
