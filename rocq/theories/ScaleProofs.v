(* Energies in other units and with other data sheets. *)
From Coq Require Import QArith NArith List Bool Arith Lia Lqa Permutation.
From Verif Require Import Base Command CoreModel Bits StatsModel StatsSpec EnergyModel EnergySpec EnergyProofs EnergyMore IfEnergyModel IfEnergySpec IfExactSpec IfExactProofs ScaleSpec.
Import ListNotations.
Local Open Scope Q_scope.

(* ---------------- core: coefficients ---------------- *)
Section Units.
  Context (a b c : Q) (p : espec) (w : power).
  Context (W : well_formed p) (C : ~ c == 0).
  Let p' := in_units a b c p.
  Let w' := with_currents a (fun i => b * i w) w.
  Lemma nz_B : ~ qB p == 0. Proof using W. apply inject_nat_nz, W. Qed.
  Lemma nz_ras : ~ qn (es_tRAS p) * es_tCK p == 0. Proof using W. apply mult_nz; [apply qn_nz, W|apply W]. Qed.
  Lemma u_rho : I_rho p' w' == b * I_rho p w.
  Proof using.
    clear W C. unfold I_rho, p', w', qB. cbn [in_units clocked supplied with_currents es_std es_rho es_banks pw_i3n pw_i2n].
    destruct (es_std p); try ring; unfold Qdiv; ring.
  Qed.
  Lemma u_1 : I_1 p' w' == b * I_1 p w.
  Proof using.
    unfold I_1. change (es_std p') with (es_std p). change (qB p') with (qB p). change (pw_i3n w') with (b * pw_i3n w). destruct (es_std p); rewrite ?u_rho; unfold Qdiv; ring.
  Qed.
  Lemma u_B : I_B p' w' == b * I_B p w.
  Proof using.
    unfold I_B. change (es_std p') with (es_std p). change (qB p') with (qB p). change (pw_i3n w') with (b * pw_i3n w). destruct (es_std p); rewrite ?u_rho, ?u_1; unfold Qdiv; ring.
  Qed.
  Lemma u_BG : I_BG p' w' == b * I_BG p w.
  Proof using. unfold I_BG. change (qBG p') with (qBG p). rewrite u_rho, u_1. ring. Qed.
  Lemma u_2 : I_2 p' w' == b * I_2 p w.
  Proof using. unfold I_2. rewrite u_rho, u_1. ring. Qed.
  Lemma u_theta : I_theta p' w' == b * I_theta p w.
  Proof using W C.
    unfold I_theta, t_rp, t_ras. change (pw_i0 w') with (b * pw_i0 w). change (pw_ibeta w') with (b * pw_ibeta w). change (es_tCK p') with (c * es_tCK p).
    change (es_tRAS p') with (es_tRAS p). change (es_tRP p') with (es_tRP p).
    pose proof (qn_nz _ (wf_tras _ W)). pose proof (wf_tck _ W). field. auto.
  Qed.
  Lemma u_5 : match es_std p with DDR4 | DDR5 => True | _ => IDD5_B p' w' == b * IDD5_B p w end.
  Proof using W C.
    pose proof (wf_std _ W) as X. pose proof (wf_tck _ W).
    assert (forall (P : es_tRFCs p <> 0%N), IDD5_B p' w' == b * IDD5_B p w).
    { intros P. unfold IDD5_B, t_refi, t_rfcs. change (pw_i5s w') with (b * pw_i5s w). change (pw_i2n w') with (b * pw_i2n w). change (es_tCK p') with (c * es_tCK p).
      change (es_tRFCs p') with (es_tRFCs p). change (es_tREFI p') with (es_tREFI p). pose proof (qn_nz _ P). field. auto. }
    destruct (es_std p); try exact Logic.I; apply H0, X.
  Qed.
  Lemma u_burst : i_burst p' w' == b * i_burst p w.
  Proof using. unfold i_burst. change (es_std p') with (es_std p). change (es_mbg p') with (es_mbg p). destruct (es_std p); try destruct (es_mbg p); auto using u_B, u_1, u_2. Qed.
  Lemma u_tburst : t_burst p' == c * t_burst p.
  Proof using. unfold t_burst. change (es_std p') with (es_std p). destruct (es_std p); reflexivity. Qed.
  Lemma u_coef x : coef p' w' x == a * b * c * coef p w x.
  Proof using W C.
    pose proof u_5 as F. unfold coef, t_ras, t_rp, t_rfc, t_rfcs. cbv zeta.
    change (pw_v w') with (a * pw_v w). change (pw_ibeta w') with (b * pw_ibeta w). change (pw_i2n w') with (b * pw_i2n w). change (pw_i4r w') with (b * pw_i4r w).
    change (pw_i4w w') with (b * pw_i4w w). change (pw_i5 w') with (b * pw_i5 w). change (pw_i5s w') with (b * pw_i5s w).
    change (es_tCK p') with (c * es_tCK p). change (qB p') with (qB p). change (qBG p') with (qBG p). change (es_std p') with (es_std p).
    change (es_tRAS p') with (es_tRAS p). change (es_tRP p') with (es_tRP p). change (es_tRFC p') with (es_tRFC p). change (es_tRFCs p') with (es_tRFCs p).
    change (es_bl p') with (es_bl p). change (es_dr p') with (es_dr p).
    destruct x; destruct (es_std p); rewrite ?F, ?u_theta, ?u_1, ?u_rho, ?u_burst, ?u_tburst, ?u_B, ?u_BG, ?u_2; unfold Qdiv; ring.
  Qed.
  Lemma u_scoef x : scoef p' w' x == a * b * c * scoef p w x.
  Proof using.
    unfold scoef. change (pw_v w') with (a * pw_v w). change (pw_i3p w') with (b * pw_i3p w). change (pw_i2p w') with (b * pw_i2p w). change (pw_i6 w') with (b * pw_i6 w).
    change (pw_i6ds w') with (b * pw_i6ds w). change (es_tCK p') with (c * es_tCK p). change (qD p') with (qD p). change (es_std p') with (es_std p).
    destruct x; rewrite ?u_rho; try destruct (es_std p); ring.
  Qed.
End Units.

Lemma units_wf a b c p : well_formed p -> ~ c == 0 -> well_formed (in_units a b c p).
Proof.
  intros [H1 H2 H3 H4 H5] C. constructor; cbn [in_units clocked supplied es_dr es_banks es_tCK es_tRAS es_std]; auto.
  now apply mult_nz.
Qed.

(* ---------------- from coefficients to energies ---------------- *)
Lemma multiple_by p p' st k : EnergyProofs.usable p -> EnergyProofs.usable p' -> covers p st ->
  es_ranks p' = es_ranks p -> es_devices p' = es_devices p -> es_banks p' = es_banks p ->
  (forall x, kslot p' x == k * kslot p x) -> (forall x, kscalar p' x == k * kscalar p x) ->
  exists e e', calc_energy p st = Exactly e /\ calc_energy p' st = Exactly e' /\ is_multiple k e e'.
Proof.
  intros U U' Cv R D B Ks Kc. assert (Cv' : covers p' st) by (unfold covers in *; now rewrite R, B).
  destruct (calc_ok p st U Cv) as (e & E & K). destruct (calc_ok p' st U' Cv') as (e' & E' & K'). exists e, e'. split; [exact E|]. split; [exact E'|]. intros x.
  destruct (is_slot x) eqn:S.
  - destruct x as [j i| | | | | |]; try discriminate. clear S.
    destruct (lt_dec j (es_ranks p * es_devices p * es_banks p)) as [Hj|Hj].
    + destruct (slot_value p st e j i K Hj) as (q & -> & Q1). destruct (slot_value p' st e' j i K') as (q' & -> & Q2); [now rewrite R, D, B|].
      rewrite Q1, Q2, Ks. unfold source_place. rewrite D, B. ring.
    + rewrite (slot_none p st e j i K Hj), (slot_none p' st e' j i K'); [exact Logic.I|now rewrite R, D, B].
  - destruct (scalar_value p st e x K S) as (q & -> & Q1). destruct (scalar_value p' st e' x K' S) as (q' & -> & Q2). rewrite Q1, Q2, Kc, R. ring.
Qed.
Lemma sum_by p1 p2 p st : EnergyProofs.usable p1 -> EnergyProofs.usable p2 -> EnergyProofs.usable p -> covers p st ->
  (forall q, q = p1 \/ q = p2 -> es_ranks q = es_ranks p /\ es_devices q = es_devices p /\ es_banks q = es_banks p) ->
  (forall x, kslot p x == kslot p1 x + kslot p2 x) -> (forall x, kscalar p x == kscalar p1 x + kscalar p2 x) ->
  exists e1 e2 e, calc_energy p1 st = Exactly e1 /\ calc_energy p2 st = Exactly e2 /\ calc_energy p st = Exactly e /\ is_sum e1 e2 e.
Proof.
  intros U1 U2 U Cv Sm Ks Kc.
  destruct (Sm p1 (or_introl eq_refl)) as (R1 & D1 & B1). destruct (Sm p2 (or_intror eq_refl)) as (R2 & D2 & B2).
  assert (C1 : covers p1 st) by (unfold covers in *; now rewrite R1, B1). assert (C2 : covers p2 st) by (unfold covers in *; now rewrite R2, B2).
  destruct (calc_ok p1 st U1 C1) as (e1 & E1 & K1). destruct (calc_ok p2 st U2 C2) as (e2 & E2 & K2). destruct (calc_ok p st U Cv) as (e & E & K).
  exists e1, e2, e. split; [exact E1|]. split; [exact E2|]. split; [exact E|]. intros x.
  destruct (is_slot x) eqn:S.
  - destruct x as [j i| | | | | |]; try discriminate. clear S.
    destruct (lt_dec j (es_ranks p * es_devices p * es_banks p)) as [Hj|Hj].
    + destruct (slot_value p1 st e1 j i K1) as (q1 & -> & Q1); [now rewrite R1, D1, B1|]. destruct (slot_value p2 st e2 j i K2) as (q2 & -> & Q2); [now rewrite R2, D2, B2|].
      destruct (slot_value p st e j i K Hj) as (q & -> & Q0). rewrite Q0, Q1, Q2, Ks. unfold source_place. rewrite D1, B1, D2, B2. ring.
    + rewrite (slot_none p1 st e1 j i K1), (slot_none p2 st e2 j i K2), (slot_none p st e j i K Hj); [exact Logic.I|now rewrite R2, D2, B2|now rewrite R1, D1, B1].
  - destruct (scalar_value p1 st e1 x K1 S) as (q1 & -> & Q1). destruct (scalar_value p2 st e2 x K2 S) as (q2 & -> & Q2). destruct (scalar_value p st e x K S) as (q & -> & Q0).
    rewrite Q0, Q1, Q2, Kc, R1, R2. ring.
Qed.
Lemma multiple_total k a b : is_multiple k a b -> en_total b == k * en_total a.
Proof.
  intros H. rewrite !total_is_sum. rewrite !bank_slots_sum.
  assert (L : length (en_bank a) = length (en_bank b)).
  { destruct (Nat.lt_trichotomy (length (en_bank a)) (length (en_bank b))) as [X|[X|X]]; [|exact X|].
    - specialize (H (Slot (length (en_bank a)) CAct)). rewrite slot_out, slot_in in H by lia. contradiction.
    - specialize (H (Slot (length (en_bank b)) CAct)). rewrite slot_in, slot_out in H by lia. contradiction. }
  rewrite L. pose proof (H Shared) as H1. pose proof (H PDNA) as H2. pose proof (H PDNP) as H3. pose proof (H SRef) as H4. pose proof (H DSM) as H5. pose proof (H RefAB) as H6. cbn [energy_at] in *.
  assert (F : qsum (fun j => qsum (comp_at (nth j (en_bank b) ei_zero)) counted) (seq 0 (length (en_bank b))) ==
    k * qsum (fun j => qsum (comp_at (nth j (en_bank a) ei_zero)) counted) (seq 0 (length (en_bank b)))).
  { rewrite <- qsum_scale. apply qsum_ext. intros j Hj. apply in_seq in Hj. rewrite <- qsum_scale. apply qsum_ext. intros i _.
    specialize (H (Slot j i)). rewrite !slot_in in H by lia. exact H. }
  rewrite F, H1, H2, H3, H4, H5, H6. ring.
Qed.

Theorem core_units p st a b c : well_formed p -> covers p st -> ~ c == 0 ->
  exists e e', calc_energy p st = Exactly e /\ calc_energy (in_units a b c p) st = Exactly e' /\ is_multiple (a * b * c) e e' /\ en_total e' == a * b * c * en_total e.
Proof.
  intros W Cv C. destruct (multiple_by p (in_units a b c p) st (a * b * c)) as (e & e' & E & E' & M); auto using well_formed_usable, units_wf.
  - intros x. unfold kslot. cbn [in_units clocked supplied es_domains]. rewrite qsum_map, <- qsum_scale. apply qsum_ext. intros w _. now apply u_coef.
  - intros x. unfold kscalar. cbn [in_units clocked supplied es_domains]. rewrite qsum_map, <- qsum_scale. apply qsum_ext. intros w _. now apply u_scoef.
  - exists e, e'. split; [exact E|]. split; [exact E'|]. split; [exact M|]. now apply multiple_total.
Qed.

(* ---------------- supply domains ---------------- *)
Lemma supplied_wf p l : well_formed p -> well_formed (supplied p l).
Proof. intros [H1 H2 H3 H4 H5]. now constructor. Qed.
Lemma coef_supplied p l w x : coef (supplied p l) w x = coef p w x. Proof. reflexivity. Qed.
Lemma scoef_supplied p l w x : scoef (supplied p l) w x = scoef p w x. Proof. reflexivity. Qed.
Theorem domains_add p l m st : well_formed p -> covers p st ->
  exists el em e, calc_energy (supplied p l) st = Exactly el /\ calc_energy (supplied p m) st = Exactly em /\ calc_energy (supplied p (l ++ m)) st = Exactly e /\ is_sum el em e.
Proof.
  intros W Cv. apply sum_by; auto using well_formed_usable, supplied_wf.
  - intros q [->| ->]; auto.
  - intros x. unfold kslot. cbn [supplied es_domains]. apply qsum_app.
  - intros x. unfold kscalar. cbn [supplied es_domains]. apply qsum_app.
Qed.
Lemma qsum_perm {A} (f : A -> Q) l m : Permutation l m -> qsum f l == qsum f m.
Proof. induction 1; rewrite ?qsum_cons; lra || (rewrite IHPermutation; lra). Qed.
Theorem domains_order p l m st : well_formed p -> covers p st -> Permutation l m ->
  exists e f, calc_energy (supplied p l) st = Exactly e /\ calc_energy (supplied p m) st = Exactly f /\ same_energy e f.
Proof.
  intros W Cv Pm. apply multiple_by; auto using well_formed_usable, supplied_wf.
  - intros x. unfold kslot. cbn [supplied es_domains]. rewrite Qmult_1_l. apply qsum_perm. now symmetry.
  - intros x. unfold kscalar. cbn [supplied es_domains]. rewrite Qmult_1_l. apply qsum_perm. now symmetry.
Qed.

(* ---------------- superposition of currents ---------------- *)
Section Superpose.
  Context (p : espec) (w v : power) (W : well_formed p) (V : pw_v w == pw_v v).
  Let s := added w v.
  Lemma s_rho : I_rho p s == I_rho p w + I_rho p v.
  Proof using.
    unfold I_rho, s. cbn [added with_currents pw_i3n pw_i2n]. destruct (es_std p); try ring; unfold Qdiv; ring.
  Qed.
  Lemma s_1 : I_1 p s == I_1 p w + I_1 p v.
  Proof using. unfold I_1. change (pw_i3n s) with (pw_i3n w + pw_i3n v). destruct (es_std p); rewrite ?s_rho; unfold Qdiv; ring. Qed.
  Lemma s_B : I_B p s == I_B p w + I_B p v.
  Proof using. unfold I_B. change (pw_i3n s) with (pw_i3n w + pw_i3n v). destruct (es_std p); rewrite ?s_rho, ?s_1; ring. Qed.
  Lemma s_BG : I_BG p s == I_BG p w + I_BG p v.
  Proof using. unfold I_BG. rewrite s_rho, s_1. ring. Qed.
  Lemma s_2 : I_2 p s == I_2 p w + I_2 p v.
  Proof using. unfold I_2. rewrite s_rho, s_1. ring. Qed.
  Lemma s_theta : I_theta p s == I_theta p w + I_theta p v.
  Proof using. unfold I_theta. change (pw_i0 s) with (pw_i0 w + pw_i0 v). change (pw_ibeta s) with (pw_ibeta w + pw_ibeta v). unfold Qdiv. ring. Qed.
  Lemma s_5 : IDD5_B p s == IDD5_B p w + IDD5_B p v.
  Proof using. unfold IDD5_B. change (pw_i5s s) with (pw_i5s w + pw_i5s v). change (pw_i2n s) with (pw_i2n w + pw_i2n v). unfold Qdiv. ring. Qed.
  Lemma s_burst : i_burst p s == i_burst p w + i_burst p v.
  Proof using. unfold i_burst. destruct (es_std p); try destruct (es_mbg p); auto using s_B, s_1, s_2. Qed.
  Lemma s_coef x : coef p s x == coef p w x + coef p v x.
  Proof using V.
    unfold coef. cbv zeta. change (pw_v s) with (1 * pw_v w).
    change (pw_ibeta s) with (pw_ibeta w + pw_ibeta v). change (pw_i2n s) with (pw_i2n w + pw_i2n v). change (pw_i4r s) with (pw_i4r w + pw_i4r v).
    change (pw_i4w s) with (pw_i4w w + pw_i4w v). change (pw_i5 s) with (pw_i5 w + pw_i5 v). change (pw_i5s s) with (pw_i5s w + pw_i5s v).
    destruct x; destruct (es_std p); rewrite <- ?V; rewrite ?s_5, ?s_theta, ?s_1, ?s_rho, ?s_burst, ?s_B, ?s_BG, ?s_2; unfold Qdiv; ring.
  Qed.
  Lemma s_scoef x : scoef p s x == scoef p w x + scoef p v x.
  Proof using V.
    unfold scoef. change (pw_v s) with (1 * pw_v w). change (pw_i3p s) with (pw_i3p w + pw_i3p v). change (pw_i2p s) with (pw_i2p w + pw_i2p v).
    change (pw_i6 s) with (pw_i6 w + pw_i6 v). change (pw_i6ds s) with (pw_i6ds w + pw_i6ds v).
    destruct x; try destruct (es_std p); rewrite <- ?V; rewrite ?s_rho; ring.
  Qed.
End Superpose.
Theorem currents_add p (l : list (power * power)) st : well_formed p -> covers p st -> (forall x, In x l -> pw_v (fst x) == pw_v (snd x)) ->
  exists e1 e2 e, calc_energy (supplied p (map fst l)) st = Exactly e1 /\ calc_energy (supplied p (map snd l)) st = Exactly e2 /\
    calc_energy (supplied p (map (fun x => added (fst x) (snd x)) l)) st = Exactly e /\ is_sum e1 e2 e.
Proof.
  intros W Cv V. apply sum_by; auto using well_formed_usable, supplied_wf.
  - intros q [->| ->]; auto.
  - intros x. unfold kslot. cbn [supplied es_domains]. rewrite !qsum_map, <- qsum_plus. apply qsum_ext. intros w Hw. rewrite !coef_supplied. now apply s_coef, V.
  - intros x. unfold kscalar. cbn [supplied es_domains]. rewrite !qsum_map, <- qsum_plus. apply qsum_ext. intros w Hw. rewrite !scoef_supplied. now apply s_scoef, V.
Qed.

(* ---------------- interface ---------------- *)
Section IfUnits.
  Context (a r c k : Q) (p : ispec) (st : sim_stats) (R : ~ r == 0).
  Let p' := interface_units a r c k p.
  Lemma iu_line g : impedance p' g = line_units r k (impedance p g). Proof using. destruct g; reflexivity. Qed.
  Lemma iu_rate g : rate p' g = rate p g. Proof using. destruct g; reflexivity. Qed.
  Lemma iu_beat g : beat p' g == c * beat p g.
  Proof using. unfold beat. rewrite iu_rate. destruct g; cbn [p' interface_units is_tWCK is_tCK]; unfold Qdiv; ring. Qed.
  Lemma iu_zero l : Qeq_bool (ln_R (line_units r k l)) 0 = Qeq_bool (ln_R l) 0.
  Proof using R.
    cbn [line_units ln_R]. apply eq_true_iff_eq. rewrite !Qeq_bool_iff. split; intros H.
    - destruct (Qmult_integral _ _ H); [contradiction|assumption].
    - rewrite H. ring.
  Qed.
  Lemma iu_computable : computable p' <-> computable p.
  Proof using R.
    unfold computable. change (is_std p') with (is_std p). split; intros H g Hg D; specialize (H g Hg).
    - rewrite iu_rate, iu_line in H. destruct H as [H1 H2].
      + unfold divides in *. change (is_std p') with (is_std p). rewrite iu_line, iu_zero. exact D.
      + split; [exact H1|]. intros Z. apply H2. cbn [line_units ln_R]. rewrite Z. ring.
    - rewrite iu_rate, iu_line. destruct H as [H1 H2].
      + unfold divides in *. change (is_std p') with (is_std p) in D. rewrite iu_line, iu_zero in D. exact D.
      + split; [exact H1|]. cbn [line_units ln_R]. now apply mult_nz.
  Qed.
  Lemma iu_static g : static_of p' st g == a * a * c / r * static_of p st g.
  Proof using R.
    unfold static_of. rewrite iu_line. change (ln_term (line_units r k (impedance p g))) with (ln_term (impedance p g)). destruct (ln_term (impedance p g)); [|unfold Qdiv; ring].
    rewrite <- qsum_scale. apply qsum_ext. intros b _. rewrite iu_beat. change (is_std p') with (is_std p). change (is_vddq p') with (a * is_vddq p).
    cbn [line_units ln_R]. unfold Qdiv. rewrite Qinv_mult_distr. ring.
  Qed.
  Lemma iu_dynamic g : dynamic_of p' st g == k * dynamic_of p st g.
  Proof using.
    unfold dynamic_of. rewrite <- qsum_scale. apply qsum_ext. intros b _. rewrite iu_line. cbn [line_units ln_E]. ring.
  Qed.
  Lemma iu_charged s : charged_static p' st s == a * a * c / r * charged_static p st s /\ charged_dynamic p' st s == k * charged_dynamic p st s.
  Proof using R.
    unfold charged_static, charged_dynamic, charged_amble_static, charged_amble_dynamic, stray. change (is_std p') with (is_std p).
    rewrite !iu_line, iu_zero. cbn [line_units ln_R ln_E ln_term]. change (is_vddq p') with (a * is_vddq p). change (is_tCK p') with (c * is_tCK p).
    change (pairs p') with (pairs p). change (lows p' s) with (lows p s). change (rises p' s) with (rises p s).
    rewrite (qsum_ext (static_of p' st) (fun g => a * a * c / r * static_of p st g)) by (intros; apply iu_static).
    rewrite (qsum_ext (dynamic_of p' st) (fun g => k * dynamic_of p st g)) by (intros; apply iu_dynamic).
    rewrite !qsum_scale. split.
    - destruct (is_std p); try destruct (ln_term _); try destruct (Qeq_bool _ _); cbn [orb]; rewrite ?iu_beat; unfold Qdiv; rewrite ?Qinv_mult_distr; ring.
    - destruct (is_std p); try destruct (ln_term _); ring.
  Qed.
End IfUnits.
Theorem interface_scaling a r c k p st : ~ r == 0 ->
  (computable (interface_units a r c k p) <-> computable p) /\
  (computable p -> exists e e', calculateEnergy p st = Exactly e /\ calculateEnergy (interface_units a r c k p) st = Exactly e' /\
     forall s, statics e' s == a * a * c / r * statics e s /\ dynamics e' s == k * dynamics e s).
Proof.
  intros R. split; [now apply iu_computable|]. intros Cp. destruct (energy_exact p st Cp) as (e & E & H).
  destruct (energy_exact (interface_units a r c k p) st) as (e' & E' & H'); [now apply iu_computable|].
  exists e, e'. split; [exact E|]. split; [exact E'|]. intros s. destruct (H s) as [H1 H2], (H' s) as [H3 H4].
  destruct (iu_charged a r c k p st R s) as [U1 U2]. rewrite H1, H2, H3, H4. now split.
Qed.
