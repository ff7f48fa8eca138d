(* Background currents, sign and order of the energies, layout. *)
From Coq Require Import QArith NArith List Bool Arith Lia Lqa.
From Verif Require Import Base Command CoreModel Bits ListFacts StatsModel StatsSpec StatsProofs EnergyModel EnergySpec EnergyProofs.
Import ListNotations.
Local Open Scope Q_scope.

Definition bg (p : espec) (w : power) (n : Q) : Q := I_rho p w + n * (I_1 p w - I_rho p w).

Lemma qB_nz p : well_formed p -> ~ qB p == 0.
Proof. intros W. apply inject_nat_nz, (wf_banks p W). Qed.
Lemma qB_pos p : well_formed p -> 1 <= qB p.
Proof. intros W. pose proof (wf_banks p W). unfold qB. change 1 with (inject_Z 1). rewrite <- Zle_Qle. lia. Qed.

Lemma bg_0 p w : bg p w 0 == I_rho p w. Proof. unfold bg. ring. Qed.
Lemma bg_1 p w : bg p w 1 == I_1 p w. Proof. unfold bg. ring. Qed.
Lemma bg_2 p w : bg p w 2 == I_2 p w. Proof. unfold bg, I_2. ring. Qed.
Lemma bg_B p w : well_formed p -> bg p w (qB p) == I_B p w.
Proof.
  intros W. pose proof (qB_nz p W). unfold bg, I_B, I_1. destruct (es_std p); try ring; field; assumption.
Qed.
Lemma bg_BG p w : bg p w (qBG p) == I_BG p w.
Proof. unfold bg, I_BG. ring. Qed.

Theorem bg_exists p w : well_formed p -> background p w (bg p w).
Proof.
  intros W. pose proof (qB_nz p W) as HB. destruct W as [_ _ _ _ Hx]. split; [intros n; unfold bg; ring|].
  change (qnat (es_banks p)) with (qB p) in *.
  unfold bg, I_1. destruct (es_std p) eqn:E; (split; [|field; try assumption]).
  - unfold I_rho. rewrite E. field. assumption.
  - unfold I_rho. rewrite E. field. assumption.
  - unfold I_rho. rewrite E. cbv zeta. field. now destruct Hx.
  - unfold I_rho. rewrite E. cbv zeta. field. now destruct Hx.
  - unfold I_rho. rewrite E. cbv zeta. field. now destruct Hx.
Qed.
Lemma Qmult_cancel a b c : ~ c == 0 -> a * c == b * c -> a == b.
Proof. intros H E. apply (Qmult_inj_r a b c H). exact E. Qed.

Lemma unique_ddr a b c B i3n r : ~ B == 0 -> c == a + B * (b - a) -> c == i3n -> a == r -> b == (1 / B) * (i3n + (B - 1) * r).
Proof.
  intros HB L S Z. assert (H : b * B == i3n + (B - 1) * r) by (rewrite <- S, <- Z, L; ring).
  rewrite <- H. field. exact HB.
Qed.
Lemma unique_lpddr a b c B rho i3n i2n : ~ B * rho + (1 - rho) == 0 -> c == a + B * (b - a) -> b == i3n -> a == rho * (c - i2n) + i2n ->
  a == (B * rho * i3n + (1 - rho) * i2n) / (B * rho + (1 - rho)).
Proof.
  intros HB L S Z. assert (H : a * (B * rho + (1 - rho)) == B * rho * i3n + (1 - rho) * i2n) by (rewrite L, S in Z; lra).
  rewrite <- H. field. exact HB.
Qed.
Theorem bg_unique p w I : well_formed p -> background p w I -> forall n, I n == bg p w n.
Proof.
  intros W [Lin [Z S]] n. pose proof (qB_nz p W) as HB. destruct W as [_ _ _ _ Hx].
  change (qnat (es_banks p)) with (qB p) in *. pose proof (Lin (qB p)) as LB.
  assert (E0 : I 0 == I_rho p w /\ I 1 == I_1 p w).
  { unfold I_1, I_rho. destruct (es_std p).
    - assert (Z0 : I 0 == es_rho p * (pw_i3n w - pw_i2n w) + pw_i2n w) by (rewrite Z, S; reflexivity).
      split; [exact Z0|]. exact (unique_ddr _ _ _ _ _ _ HB LB S Z0).
    - assert (Z0 : I 0 == es_rho p * (pw_i3n w - pw_i2n w) + pw_i2n w) by (rewrite Z, S; reflexivity).
      split; [exact Z0|]. exact (unique_ddr _ _ _ _ _ _ HB LB S Z0).
    - split; [|exact S]. exact (unique_lpddr _ _ _ _ _ _ _ (proj2 Hx) LB S Z).
    - split; [|exact S]. exact (unique_lpddr _ _ _ _ _ _ _ (proj2 Hx) LB S Z).
    - split; [|exact S]. exact (unique_lpddr _ _ _ _ _ _ _ (proj2 Hx) LB S Z). }
  destruct E0 as [E0 E1]. rewrite Lin, E0, E1. reflexivity.
Qed.

(* ---------------- signs ---------------- *)
Lemma Qinv_pos a : 0 < a -> 0 < / a.
Proof. intros H. now apply Qinv_lt_0_compat. Qed.
Lemma times_nonneg a b : 0 <= a -> 0 <= b -> 0 <= a * b.
Proof. apply Qmult_le_0_compat. Qed.
Lemma inv_nonneg a : 0 <= a -> 0 <= 1 / a.
Proof. intros H. unfold Qdiv. rewrite Qmult_1_l. now apply Qinv_le_0_compat. Qed.
Lemma qnat_pos n : 0 <= qnat n.
Proof. unfold qnat. change 0 with (inject_Z 0). rewrite <- Zle_Qle. lia. Qed.

Lemma tck_pos p : well_formed p -> sane p -> 0 < es_tCK p.
Proof. intros W S. pose proof (wf_tck p W). pose proof (sn_tck p S). lra. Qed.
Lemma tras_pos p : well_formed p -> sane p -> 0 < t_ras p.
Proof.
  intros W S. unfold t_ras. pose proof (wf_tras p W) as H. apply Qmult_lt_0_compat; [|now apply tck_pos].
  unfold qn. change 0 with (inject_Z 0). rewrite <- Zlt_Qlt. lia.
Qed.
Lemma time_nonneg p n : sane p -> 0 <= qn n * es_tCK p.
Proof. intros S. apply times_nonneg; [apply qn_pos|apply (sn_tck p S)]. Qed.

Lemma current_order p w I : well_formed p -> sane p -> sane_domain p w I -> 0 <= I_rho p w /\ I_rho p w <= I_1 p w /\ I_1 p w <= pw_i3n w.
Proof.
  intros W S D. pose proof (qB_pos p W) as HB. destruct (sn_rho p S) as [R0 R1]. pose proof (sd_2n p w I D) as A. pose proof (sd_3n p w I D) as B.
  assert (IB : 0 < / qB p) by (apply Qinv_pos; lra).
  assert (IB1 : / qB p <= 1).
  { apply Qle_shift_inv_r; lra. }
  assert (DDR : 0 <= es_rho p * (pw_i3n w - pw_i2n w) + pw_i2n w /\ es_rho p * (pw_i3n w - pw_i2n w) + pw_i2n w <= pw_i3n w) by (split; nra).
  assert (DDR1 : forall r, r <= pw_i3n w -> r <= 1 / qB p * (pw_i3n w + (qB p - 1) * r) /\ 1 / qB p * (pw_i3n w + (qB p - 1) * r) <= pw_i3n w).
  { intros r Hr. assert (E : 1 / qB p * (pw_i3n w + (qB p - 1) * r) == r + / qB p * (pw_i3n w - r)) by (field; lra).
    rewrite E. split; nra. }
  assert (LP : 0 < qB p * es_rho p + (1 - es_rho p)) by nra.
  assert (LPI : 0 < / (qB p * es_rho p + (1 - es_rho p))) by now apply Qinv_pos.
  assert (LP1 : 0 <= (qB p * es_rho p * pw_i3n w + (1 - es_rho p) * pw_i2n w) / (qB p * es_rho p + (1 - es_rho p)) /\
    (qB p * es_rho p * pw_i3n w + (1 - es_rho p) * pw_i2n w) / (qB p * es_rho p + (1 - es_rho p)) <= pw_i3n w).
  { split.
    - apply Qle_shift_div_l; [exact LP|]. assert (0 <= qB p * es_rho p * pw_i3n w) by (apply times_nonneg; [apply times_nonneg; lra|lra]).
      assert (0 <= (1 - es_rho p) * pw_i2n w) by (apply times_nonneg; lra). lra.
    - apply Qle_shift_div_r; [exact LP|]. assert (0 <= (1 - es_rho p) * (pw_i3n w - pw_i2n w)) by (apply times_nonneg; lra). nra. }
  unfold I_1, I_rho. cbv zeta. destruct (es_std p).
  - destruct (DDR1 (es_rho p * (pw_i3n w - pw_i2n w) + pw_i2n w) (proj2 DDR)). tauto.
  - destruct (DDR1 (es_rho p * (pw_i3n w - pw_i2n w) + pw_i2n w) (proj2 DDR)). tauto.
  - split; [tauto|]. split; [tauto|]. apply Qle_refl.
  - split; [tauto|]. split; [tauto|]. apply Qle_refl.
  - split; [tauto|]. split; [tauto|]. apply Qle_refl.
Qed.

Lemma diff_nonneg a b : a <= b -> 0 <= b - a. Proof. intros. lra. Qed.
Lemma coef_nonneg p w I c : well_formed p -> sane p -> background p w I -> sane_domain p w I -> 0 <= coef p w c.
Proof.
  intros W S G D. destruct (current_order p w I W S D) as (O1 & O2 & O3).
  pose proof (bg_unique p w I W G) as U. pose proof (qB_pos p W) as HB.
  pose proof (sd_v p w I D) as V. pose proof (sd_2n p w I D) as A2. pose proof (sd_3n p w I D) as A3. pose proof (sd_0 p w I D) as A0.
  destruct (sd_beta p w I D) as [B1 B2]. destruct (sd_4 p w I D) as [R4 W4]. pose proof (sd_5 p w I D) as R5. pose proof (sd_5s p w I D) as R5s.
  assert (T : forall n, 0 <= qn n * es_tCK p) by (intros; now apply time_nonneg).
  pose proof (tras_pos p W S) as TR. pose proof (sn_tck p S) as TC. pose proof (sn_twck p S) as TW.
  assert (NB : 0 <= 1 / qB p) by (apply inv_nonneg; lra).
  assert (BI : I (qnat (banks_in_burst p)) == i_burst p w).
  { rewrite U. unfold banks_in_burst, i_burst. destruct (es_std p); [apply bg_B, W|apply bg_B, W|apply bg_1| |apply bg_2].
    destruct (es_mbg p); [apply bg_2|apply bg_1]. }
  assert (BB : I (qnat (es_banks p)) == I_B p w) by (rewrite U; apply bg_B, W).
  rewrite BI in R4, W4. rewrite BB in R5.
  assert (TB : 0 <= t_burst p) by (unfold t_burst; destruct (es_std p); assumption).
  assert (PRE : 0 <= pw_v w * (pw_ibeta w - pw_i2n w) * t_rp p) by (apply times_nonneg; [apply times_nonneg; lra|apply T]).
  assert (RD : 0 <= pw_v w * (pw_i4r w - i_burst p w) * (match es_std p with DDR4 | DDR5 => qn (es_bl p) / qn (es_dr p) | _ => qn (es_bl p / es_dr p) end) * t_burst p).
  { apply times_nonneg; [apply times_nonneg; [apply times_nonneg; [exact V|lra]|]|exact TB].
    assert (0 <= qn (es_bl p) / qn (es_dr p)) by (unfold Qdiv; apply times_nonneg; [apply qn_pos|apply Qinv_le_0_compat, qn_pos]).
    destruct (es_std p); try apply qn_pos; assumption. }
  assert (WR : 0 <= pw_v w * (pw_i4w w - i_burst p w) * qn (es_bl p / es_dr p) * t_burst p).
  { apply times_nonneg; [apply times_nonneg; [apply times_nonneg; [exact V|lra]|]|exact TB]. apply qn_pos. }
  assert (TS : es_std p = LPDDR4 \/ es_std p = LPDDR5 \/ es_std p = LPDDR6 -> ~ t_rfcs p == 0).
  { intros H. destruct W as [_ _ HC _ HX]. apply mult_nz; [|exact HC]. apply qn_nz. destruct H as [H|[H|H]]; rewrite H in HX; apply HX. }
  assert (SM : forall i, ~ t_rfcs p == 0 -> (IDD5_B p w - i) * t_rfcs p == pw_i5s w * (t_refi p / 8) - pw_i2n w * (t_refi p / 8 - t_rfcs p) - i * t_rfcs p).
  { intros i H. unfold IDD5_B. field. exact H. }
  assert (I12 : I_1 p w <= I_2 p w) by (unfold I_2; lra).
  assert (E1 : I 1 == I_1 p w) by (rewrite U; apply bg_1). assert (E2 : I 2 == I_2 p w) by (rewrite U; apply bg_2).
  pose proof (T (es_tRFCs p)) as TS0. fold (t_rfcs p) in TS0.
  unfold coef. destruct c; try exact PRE; try exact RD; try exact WR.
  - assert (E : pw_v w * (I_theta p w - I_1 p w) * t_ras p == pw_v w * ((pw_i0 w - pw_ibeta w) * t_rp p + (pw_i0 w - I_1 p w) * t_ras p)).
    { unfold I_theta. field. lra. }
    rewrite E. apply times_nonneg; [exact V|]. assert (0 <= (pw_i0 w - pw_ibeta w) * t_rp p) by (apply times_nonneg; [lra|apply T]).
    assert (0 <= (pw_i0 w - I_1 p w) * t_ras p) by (apply times_nonneg; lra). lra.
  - apply times_nonneg; [apply times_nonneg; lra|exact TC].
  - apply times_nonneg; [apply times_nonneg; [apply times_nonneg|]|]; assumption.
  - apply times_nonneg; [apply times_nonneg; [apply times_nonneg; assumption|lra]|apply T].
  - destruct (es_std p) eqn:ES; try apply Qle_refl; rewrite <- Qmult_assoc, SM by (apply TS; tauto); apply times_nonneg; try exact V;
      [rewrite E1 in R5s; lra|rewrite E2 in R5s].
    assert (I_1 p w * t_rfcs p <= I_2 p w * t_rfcs p) by (apply Qmult_le_compat_r; assumption). lra.
  - destruct (es_std p) eqn:ES; try apply Qle_refl. assert (E : I (qnat (es_groups p)) == I_BG p w) by (rewrite U; apply bg_BG). rewrite E in R5s.
    apply times_nonneg; [apply times_nonneg; [apply times_nonneg; [exact V|lra]|exact TS0]|]. apply inv_nonneg. apply qnat_pos.
  - destruct (es_std p) eqn:ES; try apply Qle_refl. rewrite <- Qmult_assoc, SM by (apply TS; tauto). rewrite E2 in R5s. apply times_nonneg; [lra|]. lra.
  - destruct (es_std p) eqn:ES; try apply Qle_refl. rewrite <- Qmult_assoc, SM by (apply TS; tauto). rewrite E2 in R5s. apply times_nonneg; [lra|]. lra.
Qed.
Lemma scoef_nonneg p w I x : well_formed p -> sane p -> sane_domain p w I -> 0 <= scoef p w x.
Proof.
  intros W S D. destruct (current_order p w I W S D) as (O1 & _ & _). pose proof (sd_v p w I D) as V. destruct (sd_sleep p w I D) as (S1 & S2 & S3 & S4).
  pose proof (sn_tck p S) as TC. assert (QD : 0 <= qD p) by apply qnat_pos.
  assert (G : forall i, 0 <= i -> 0 <= pw_v w * i * es_tCK p * qD p) by (intros i Hi; apply times_nonneg; [apply times_nonneg; [apply times_nonneg|]|]; assumption).
  unfold scoef. destruct x; try apply Qle_refl; try (apply G; assumption). destruct (es_std p); try apply Qle_refl; apply G; assumption.
Qed.
Lemma kslot_nonneg p c : well_formed p -> sane p -> 0 <= kslot p c.
Proof. intros W S. apply qsum_nonneg. intros w Hw. destruct (sn_domains p S w Hw) as (I & G & D). now apply coef_nonneg with (I := I). Qed.
Lemma kscalar_nonneg p x : well_formed p -> sane p -> 0 <= kscalar p x.
Proof. intros W S. apply qsum_nonneg. intros w Hw. destruct (sn_domains p S w Hw) as (I & G & D). now apply scoef_nonneg with (I := I). Qed.

Theorem energy_nonneg p st : well_formed p -> sane p -> covers p st ->
  exists e, calc_energy p st = Exactly e /\ all_numbers (fun q => 0 <= q) e.
Proof.
  intros W S C. destruct (calc_ok p st (well_formed_usable p W) C) as (e & E & K). exists e. split; [exact E|]. intros x q Hq.
  destruct (is_slot x) eqn:X.
  - destruct x as [j c| | | | | |]; try discriminate. destruct (lt_dec j (es_ranks p * es_devices p * es_banks p)) as [Hj|Hj].
    + destruct (slot_value p st e j c K Hj) as (q' & E' & V). assert (q' = q) as <- by congruence. rewrite V.
      apply times_nonneg; [now apply kslot_nonneg|apply qn_pos].
    + rewrite (slot_none p st e j c K Hj) in Hq. discriminate.
  - destruct (scalar_value p st e x K X) as (q' & E' & V). assert (q' = q) as <- by congruence. rewrite V.
    apply times_nonneg; [now apply kscalar_nonneg|]. apply qsum_nonneg. intros. apply qn_pos.
Qed.
Theorem energy_monotone p a b : well_formed p -> sane p -> covers p a -> covers p b -> counts_le a b ->
  exists ea eb, calc_energy p a = Exactly ea /\ calc_energy p b = Exactly eb /\ at_most ea eb /\ en_total ea <= en_total eb.
Proof.
  intros W S Ca Cb L. pose proof (well_formed_usable p W) as Us.
  destruct (calc_ok p a Us Ca) as (ea & Ea & Ka). destruct (calc_ok p b Us Cb) as (eb & Eb & Kb).
  exists ea, eb. split; [exact Ea|]. split; [exact Eb|].
  assert (M : at_most ea eb).
  { intros x. destruct (is_slot x) eqn:X.
    - destruct x as [j c| | | | | |]; try discriminate. destruct (lt_dec j (es_ranks p * es_devices p * es_banks p)) as [Hj|Hj].
      + destruct (slot_value p a ea j c Ka Hj) as (qa & -> & A). destruct (slot_value p b eb j c Kb Hj) as (qb & -> & B).
        rewrite A, B, !(Qmult_comm (kslot p c)). apply Qmult_le_compat_r; [apply qn_le, L|now apply kslot_nonneg].
      + now rewrite (slot_none p a ea j c Ka Hj), (slot_none p b eb j c Kb Hj).
    - destruct (scalar_value p a ea x Ka X) as (qa & -> & A). destruct (scalar_value p b eb x Kb X) as (qb & -> & B).
      rewrite A, B, !(Qmult_comm (kscalar p x)). apply Qmult_le_compat_r; [|now apply kscalar_nonneg].
      apply qsum_le. intros i _. apply qn_le, L. }
  split; [exact M|]. now apply at_most_total.
Qed.

(* ---------------- layout ---------------- *)
Theorem slot_in_range p r d b : (r < es_ranks p)%nat -> (d < es_devices p)%nat -> (b < es_banks p)%nat ->
  (slot p r d b < es_ranks p * es_devices p * es_banks p)%nat.
Proof.
  intros Hr Hd Hb. unfold slot. assert (A : (r * es_devices p + d + 1 <= es_ranks p * es_devices p)%nat) by nia.
  apply (Nat.mul_le_mono_r _ _ (es_banks p)) in A. nia.
Qed.
Theorem slot_injective p r d b r' d' b' : (d < es_devices p)%nat -> (b < es_banks p)%nat -> (d' < es_devices p)%nat -> (b' < es_banks p)%nat ->
  slot p r d b = slot p r' d' b' -> r = r' /\ d = d' /\ b = b'.
Proof.
  intros Hd Hb Hd' Hb' E. unfold slot in E.
  destruct (in_block r d b (es_devices p) (es_banks p) Hd Hb) as [A1 A2]. destruct (in_block r' d' b' (es_devices p) (es_banks p) Hd' Hb') as [B1 B2].
  rewrite E in A1, A2. assert (r = r') by congruence. assert (b = b') by congruence. subst. nia.
Qed.
Theorem slot_surjective p j : (j < es_ranks p * es_devices p * es_banks p)%nat ->
  exists r d b, (r < es_ranks p)%nat /\ (d < es_devices p)%nat /\ (b < es_banks p)%nat /\ j = slot p r d b.
Proof.
  intros H. exists (j / (es_devices p * es_banks p))%nat, ((j / es_banks p) mod es_devices p)%nat, (j mod es_banks p)%nat.
  assert (HB : es_banks p <> 0%nat) by nia. assert (HD : es_devices p <> 0%nat) by nia.
  split; [apply Nat.div_lt_upper_bound; nia|]. split; [now apply Nat.mod_upper_bound|]. split; [now apply Nat.mod_upper_bound|].
  unfold slot. rewrite (Nat.mul_comm (es_devices p)). rewrite <- Nat.div_div by assumption.
  pose proof (Nat.div_mod j (es_banks p) HB). pose proof (Nat.div_mod (j / es_banks p) (es_devices p) HD). nia.
Qed.
Lemma contrib_slot p w st r d b : (d < es_devices p)%nat -> (b < es_banks p)%nat ->
  contrib p w st (slot p r d b) = bank_energy p w (the_bank st (r * es_banks p + b)) (the_rank st r).
Proof. intros Hd Hb. destruct (in_block r d b (es_devices p) (es_banks p) Hd Hb) as [A1 A2]. unfold contrib, slot. now rewrite A1, A2. Qed.
Lemma accum_ext p st st' j j' l : (forall w, contrib p w st j = contrib p w st' j') -> forall x, accum p st j l x = accum p st' j' l x.
Proof. intros H. unfold accum. induction l as [|w l IH]; intros x; [reflexivity|]. cbn [fold_left]. rewrite H. apply IH. Qed.

Theorem slot_local p a b ea eb r d k d' :
  calc_energy p a = Exactly ea -> calc_energy p b = Exactly eb -> covers p a -> covers p b ->
  (r < es_ranks p)%nat -> (d < es_devices p)%nat -> (d' < es_devices p)%nat -> (k < es_banks p)%nat ->
  nth_error (ss_bank a) (r * es_banks p + k) = nth_error (ss_bank b) (r * es_banks p + k) -> nth_error (ss_rank a) r = nth_error (ss_rank b) r ->
  exists i, nth_error (en_bank ea) (slot p r d k) = Some i /\ nth_error (en_bank eb) (slot p r d' k) = Some i.
Proof.
  intros Ea Eb Ca Cb Hr Hd Hd' Hk EB ER.
  assert (Us : usable p).
  { unfold calc_energy in Ea. destruct (N.eqb_spec (es_dr p) 0); [discriminate|]. destruct (finite_domain p) eqn:F; [|discriminate]. now split. }
  destruct (calc_ok p a Us Ca) as (ea' & Ea' & (_ & Ka & _)). destruct (calc_ok p b Us Cb) as (eb' & Eb' & (_ & Kb & _)).
  assert (ea' = ea) as -> by congruence. assert (eb' = eb) as -> by congruence.
  rewrite Ka by now apply slot_in_range. rewrite Kb by now apply slot_in_range.
  eexists. split; [reflexivity|]. f_equal. symmetry. apply accum_ext. intros w. rewrite !contrib_slot by assumption.
  assert (the_bank a (r * es_banks p + k) = the_bank b (r * es_banks p + k)) as ->.
  { unfold the_bank. destruct Ca as [Ca _], Cb as [Cb _].
    rewrite (nth_error_nth' (ss_bank a) cycle_stats0), (nth_error_nth' (ss_bank b) cycle_stats0) in EB by nia. congruence. }
  assert (the_rank a r = the_rank b r) as ->; [|reflexivity].
  unfold the_rank. destruct Ca as [_ Ca], Cb as [_ Cb].
  rewrite (nth_error_nth' (ss_rank a) cycle_stats0), (nth_error_nth' (ss_rank b) cycle_stats0) in ER by nia. congruence.
Qed.
Theorem slot_count p st e : calc_energy p st = Exactly e -> covers p st -> length (en_bank e) = (es_ranks p * es_devices p * es_banks p)%nat.
Proof.
  intros Ea Ca. assert (Us : usable p).
  { unfold calc_energy in Ea. destruct (N.eqb_spec (es_dr p) 0); [discriminate|]. destruct (finite_domain p) eqn:F; [|discriminate]. now split. }
  destruct (calc_ok p st Us Ca) as (e' & E' & (L & _)). assert (e' = e) as -> by congruence. exact L.
Qed.

Lemma aggregated_sum e c :
  comp_at (en_aggregated e) c == qsum (fun i => comp_at i c) (en_bank e) + match c with CBgAct => en_shared e | _ => 0 end.
Proof.
  assert (H : comp_at (en_aggregated e) c == comp_at (fold_left ei_add (en_bank e) ei_zero) c + match c with CBgAct => en_shared e | _ => 0 end)
    by (destruct c; cbn [comp_at en_aggregated e_act e_pre e_bg_act e_bg_pre e_rd e_wr e_rda e_wra e_pre_rda e_pre_wra e_ref_ab e_ref_pb e_ref_sb e_ref_2b e_ref_db]; ring).
  rewrite H, fold_ei_sum, comp_zero. ring.
Qed.
Lemma total_from_aggregate e : en_total e == ei_total (en_aggregated e) + en_pdna e + en_pdnp e + en_sref e + en_dsm e + en_refab e.
Proof. unfold en_total, en_aggregated, ei_total. cbn [e_act e_pre e_bg_act e_bg_pre e_rd e_wr e_rda e_wra e_pre_rda e_pre_wra e_ref_ab e_ref_pb e_ref_sb e_ref_2b e_ref_db]. ring. Qed.
Lemma counted_once c : NoDup counted /\ (In c counted <-> c <> CPreRda /\ c <> CPreWra).
Proof.
  split.
  - unfold counted. repeat (constructor; [cbn; intuition discriminate|]). constructor.
  - unfold counted. cbn. destruct c; intuition (try discriminate; try congruence).
Qed.
Lemma background_currents p w I : well_formed p -> background p w I ->
  I_rho p w == I 0 /\ I_1 p w == I 1 /\ I_2 p w == I 2 /\ I_B p w == I (qnat (es_banks p)) /\ I_BG p w == I (qnat (es_groups p)).
Proof.
  intros W G. pose proof (bg_unique p w I W G) as U. rewrite !U.
  split; [symmetry; apply bg_0|]. split; [symmetry; apply bg_1|]. split; [symmetry; apply bg_2|]. split; [symmetry; now apply bg_B|symmetry; apply bg_BG].
Qed.
Lemma background_exists p w : well_formed p -> exists I, background p w I.
Proof. intros W. exists (bg p w). now apply bg_exists. Qed.
