(* The rounding error of the core energy. *)
From Coq Require Import QArith Qabs Qfield Lqa NArith List Bool Arith Lia.
From Verif Require Import Base Command CoreModel Bits StatsModel ListFacts EnergyModel EnergySpec EnergyProofs RoundModel RoundSpec RoundBasics.
Import ListNotations.
Local Open Scope Q_scope.

Lemma qnat_nonneg n : 0 <= qnat n.
Proof. unfold qnat. change 0 with (inject_Z 0). rewrite <- Zle_Qle. lia. Qed.
Lemma qn_of_nat n : qn (N.of_nat n) = qnat n.
Proof. unfold qn, qnat. rewrite nat_N_Z. reflexivity. Qed.
Lemma qn_pred n : n <> 0%nat -> qn (N.of_nat n - 1) == qnat n - 1.
Proof.
  intros H. unfold qn, qnat. rewrite N2Z.inj_sub by lia. rewrite nat_N_Z.
  change (Z.of_N 1) with 1%Z. unfold Z.sub. rewrite inject_Z_plus. reflexivity.
Qed.
Lemma pos_nz a : 0 <= a -> ~ a == 0 -> 0 < a.
Proof. intros H N. destruct (Qlt_le_dec 0 a) as [L|L]; [exact L|]. exfalso. apply N. lra. Qed.
Lemma Qeq_bool_true a : negb (Qeq_bool a 0) = true -> ~ a == 0.
Proof. intros H E. apply Qeq_bool_iff in E. rewrite E in H. discriminate. Qed.
Lemma Qle_eq a b : a == b -> a <= b.
Proof. intros H. rewrite H. apply Qle_refl. Qed.

Section Core.
Variable R : arithmetic.
Variables u rho : Q.
Hypothesis SM : standard_model R u.
Hypothesis Hu : 0 <= u.
Hypothesis Hup : 1 + u <= rho.
Hypothesis Hdown : 1 <= rho * (1 - u).
Variable p : espec.
Hypothesis NG : nonnegative p.
Hypothesis US : usable p.

Local Notation near := (near rho).
Local Notation close := (close rho).

Lemma facts : 0 < qB p /\ 0 < t_ras p /\ 0 < qn (es_dr p) /\ es_banks p <> 0%nat /\
  match es_std p with DDR4 => True | DDR5 => 0 < qBG p | _ => 0 < qB p * es_rho p + (1 - es_rho p) /\ 0 < t_rfcs p end.
Proof using NG US.
  destruct US as [Hd Hf]. unfold finite_domain in Hf.
  apply andb_prop in Hf. destruct Hf as [Hf Hs]. apply andb_prop in Hf. destruct Hf as [Hb Ht].
  apply Qeq_bool_true in Hb. apply Qeq_bool_true in Ht.
  assert (Tn : forall n, 0 <= qn n * es_tCK p) by (intros n; apply mul_pos; [apply qn_pos|apply (ng_tck _ NG)]).
  split; [apply pos_nz; [apply qnat_nonneg|exact Hb]|].
  split; [apply pos_nz; [apply Tn|exact Ht]|].
  split; [apply pos_nz; [apply qn_pos|apply qn_nz; exact Hd]|].
  split; [intros E; apply Hb; unfold qB; rewrite E; reflexivity|].
  destruct (ng_rho _ NG) as [R0 R1].
  assert (L : 0 <= qB p * es_rho p) by (apply mul_pos; [apply qnat_nonneg|exact R0]).
  destruct (es_std p); try exact I; try (apply andb_prop in Hs; destruct Hs as [H1 H2]; apply Qeq_bool_true in H1; apply Qeq_bool_true in H2; split; apply pos_nz; try assumption; try lra; apply Tn).
  apply pos_nz; [apply qnat_nonneg|]. apply Qeq_bool_true. exact Hs.
Qed.

Lemma B_close : close 1 (rB R p) (qB p).
Proof using SM Hu Hup Hdown. unfold rB, qB. fold (qnat (es_banks p)). rewrite <- qn_of_nat. apply (close_of R u); assumption. Qed.
Lemma BG_close : close 1 (rBG R p) (qBG p).
Proof using SM Hu Hup Hdown. unfold rBG, qBG. fold (qnat (es_groups p)). rewrite <- qn_of_nat. apply (close_of R u); assumption. Qed.
Lemma D_close : close 1 (rD R p) (qD p).
Proof using SM Hu Hup Hdown. unfold rD, qD. fold (qnat (es_devices p)). rewrite <- qn_of_nat. apply (close_of R u); assumption. Qed.
Lemma of_close n : close 1 (r_of R n) (qn n).
Proof using SM Hu Hup Hdown. apply (close_of R u); assumption. Qed.
Lemma time_close n : close 2 (rtime R p n) (duration p n).
Proof using SM Hu Hup Hdown NG.
  unfold rtime, duration. apply (close_mul R u rho SM Hu Hup Hdown 1 _ _ 0); [apply of_close|].
  apply close_const, (ng_tck _ NG).
Qed.
Lemma div_close : match es_std p with DDR4 | DDR5 => True | _ => close 3 (rI_div R p) (qB p * es_rho p + (1 - es_rho p)) end.
Proof using SM Hu Hup Hdown NG.
  assert (close 3 (rI_div R p) (qB p * es_rho p + (1 - es_rho p))).
  { unfold rI_div. apply (close_add R u rho SM Hu Hup Hdown 2 _ _ 1).
    - apply (close_mul R u rho SM Hu Hup Hdown 1 _ _ 0); [apply B_close|]. apply close_const, (ng_rho _ NG).
    - apply (close_diff R u); try assumption; destruct (ng_rho _ NG); lra. }
  destruct (es_std p); trivial.
Qed.

(* the same facts for values that are near *)
Lemma near_B : near 1 (qB p) (rB R p) (qB p). Proof using SM Hu Hup Hdown. apply (close_near u); auto. apply B_close. Qed.
Lemma near_BG : near 1 (qBG p) (rBG R p) (qBG p). Proof using SM Hu Hup Hdown. apply (close_near u); auto. apply BG_close. Qed.
Lemma near_D : near 1 (qD p) (rD R p) (qD p). Proof using SM Hu Hup Hdown. apply (close_near u); auto. apply D_close. Qed.
Lemma near_of n : near 1 (qn n) (r_of R n) (qn n). Proof using SM Hu Hup Hdown. apply (close_near u); auto. apply of_close. Qed.
Lemma near_time n : near 2 (duration p n) (rtime R p n) (duration p n). Proof using SM Hu Hup Hdown NG. apply (close_near u); auto. apply time_close. Qed.
Lemma near_rho_diff : near 1 (1 - es_rho p) (r_sub R 1 (es_rho p)) (1 - es_rho p).
Proof using SM Hu Hup Hdown NG. apply (close_near u); auto. destruct (ng_rho _ NG). apply (close_diff R u); auto; lra. Qed.
Lemma near_rho : near 0 (es_rho p) (es_rho p) (es_rho p). Proof using NG. apply near_const, (ng_rho _ NG). Qed.
Lemma near_tck : near 0 (es_tCK p) (es_tCK p) (es_tCK p). Proof using NG. apply near_const, (ng_tck _ NG). Qed.
Lemma near_twck : near 0 (es_tWCK p) (es_tWCK p) (es_tWCK p). Proof using NG. apply near_const, (ng_twck _ NG). Qed.
Lemma near_1 : near 0 1 1 1. Proof using. apply near_const. lra. Qed.
Lemma near_8 : close 0 8 8. Proof using. apply close_const. lra. Qed.
Lemma near_half : near 0 (1 # 2) (1 # 2) (1 # 2). Proof using. apply near_const. lra. Qed.

Section Domain.
Variable w : power.
Hypothesis Hw : In w (es_domains p).

Lemma near_v : near 0 (pw_v w) (pw_v w) (pw_v w). Proof using NG Hw. apply near_const. pose proof (ng_power _ NG w Hw). tauto. Qed.
Lemma near_i0 : near 0 (pw_i0 w) (pw_i0 w) (pw_i0 w). Proof using NG Hw. apply near_const. pose proof (ng_power _ NG w Hw). tauto. Qed.
Lemma near_i2n : near 0 (pw_i2n w) (pw_i2n w) (pw_i2n w). Proof using NG Hw. apply near_const. pose proof (ng_power _ NG w Hw). tauto. Qed.
Lemma near_i3n : near 0 (pw_i3n w) (pw_i3n w) (pw_i3n w). Proof using NG Hw. apply near_const. pose proof (ng_power _ NG w Hw). tauto. Qed.
Lemma near_i2p : near 0 (pw_i2p w) (pw_i2p w) (pw_i2p w). Proof using NG Hw. apply near_const. pose proof (ng_power _ NG w Hw). tauto. Qed.
Lemma near_i3p : near 0 (pw_i3p w) (pw_i3p w) (pw_i3p w). Proof using NG Hw. apply near_const. pose proof (ng_power _ NG w Hw). tauto. Qed.
Lemma near_i4r : near 0 (pw_i4r w) (pw_i4r w) (pw_i4r w). Proof using NG Hw. apply near_const. pose proof (ng_power _ NG w Hw). tauto. Qed.
Lemma near_i4w : near 0 (pw_i4w w) (pw_i4w w) (pw_i4w w). Proof using NG Hw. apply near_const. pose proof (ng_power _ NG w Hw). tauto. Qed.
Lemma near_i5 : near 0 (pw_i5 w) (pw_i5 w) (pw_i5 w). Proof using NG Hw. apply near_const. pose proof (ng_power _ NG w Hw). tauto. Qed.
Lemma near_i5s : near 0 (pw_i5s w) (pw_i5s w) (pw_i5s w). Proof using NG Hw. apply near_const. pose proof (ng_power _ NG w Hw). tauto. Qed.
Lemma near_i6 : near 0 (pw_i6 w) (pw_i6 w) (pw_i6 w). Proof using NG Hw. apply near_const. pose proof (ng_power _ NG w Hw). tauto. Qed.
Lemma near_i6ds : near 0 (pw_i6ds w) (pw_i6ds w) (pw_i6ds w). Proof using NG Hw. apply near_const. pose proof (ng_power _ NG w Hw). tauto. Qed.
Lemma near_ibeta : near 0 (pw_ibeta w) (pw_ibeta w) (pw_ibeta w). Proof using NG Hw. apply near_const. pose proof (ng_power _ NG w Hw). tauto. Qed.

Ltac leaf :=
  lazymatch goal with
  | |- RoundBasics.near _ _ _ (rB _ _) _ => exact near_B
  | |- RoundBasics.near _ _ _ (rBG _ _) _ => exact near_BG
  | |- RoundBasics.near _ _ _ (rD _ _) _ => exact near_D
  | |- RoundBasics.near _ _ _ (r_of _ _) _ => apply near_of
  | |- RoundBasics.near _ _ _ (rtime _ _ _) _ => apply near_time
  | |- RoundBasics.near _ _ _ (es_rho _) _ => exact near_rho
  | |- RoundBasics.near _ _ _ (es_tCK _) _ => exact near_tck
  | |- RoundBasics.near _ _ _ (es_tWCK _) _ => exact near_twck
  | |- RoundBasics.near _ _ _ 1 _ => exact near_1
  | |- RoundBasics.near _ _ _ (1 # 2) _ => exact near_half
  | |- RoundBasics.near _ _ _ (pw_v _) _ => exact near_v
  | |- RoundBasics.near _ _ _ (pw_i0 _) _ => exact near_i0
  | |- RoundBasics.near _ _ _ (pw_i2n _) _ => exact near_i2n
  | |- RoundBasics.near _ _ _ (pw_i3n _) _ => exact near_i3n
  | |- RoundBasics.near _ _ _ (pw_i2p _) _ => exact near_i2p
  | |- RoundBasics.near _ _ _ (pw_i3p _) _ => exact near_i3p
  | |- RoundBasics.near _ _ _ (pw_i4r _) _ => exact near_i4r
  | |- RoundBasics.near _ _ _ (pw_i4w _) _ => exact near_i4w
  | |- RoundBasics.near _ _ _ (pw_i5 _) _ => exact near_i5
  | |- RoundBasics.near _ _ _ (pw_i5s _) _ => exact near_i5s
  | |- RoundBasics.near _ _ _ (pw_i6 _) _ => exact near_i6
  | |- RoundBasics.near _ _ _ (pw_i6ds _) _ => exact near_i6ds
  | |- RoundBasics.near _ _ _ (pw_ibeta _) _ => exact near_ibeta
  | H : RoundBasics.near _ _ _ ?x _ |- RoundBasics.near _ _ _ ?x _ => exact H
  end.
Ltac divisor :=
  lazymatch goal with
  | |- RoundBasics.close _ _ (rB _ _) _ => exact B_close
  | |- RoundBasics.close _ _ (rBG _ _) _ => exact BG_close
  | |- RoundBasics.close _ _ (r_of _ _) _ => apply of_close
  | |- RoundBasics.close _ _ (rtime _ _ _) _ => apply time_close
  | |- RoundBasics.close _ _ 8 _ => exact near_8
  | H : RoundBasics.close _ _ ?x _ |- RoundBasics.close _ _ ?x _ => exact H
  end.
Ltac nr :=
  lazymatch goal with
  | |- RoundBasics.near _ _ _ (r_sub _ 1 (es_rho _)) _ => exact near_rho_diff
  | |- RoundBasics.near _ _ _ (r_add _ _ _) _ => eapply (near_add R u rho SM Hu Hup); [nr|nr]
  | |- RoundBasics.near _ _ _ (r_sub _ _ _) _ => eapply (near_sub R u rho SM Hu Hup); [nr|nr]
  | |- RoundBasics.near _ _ _ (r_mul _ _ _) _ => eapply (near_mul R u rho SM Hu Hup); [nr|nr]
  | |- RoundBasics.near _ _ _ (r_div _ _ _) _ => eapply (near_div R u rho SM Hu Hup Hdown); [nr|divisor|]
  | _ => leaf
  end.

Lemma rho_near : near 8 (size_rho p w) (rI_rho R p w) (I_rho p w).
Proof using SM Hu Hup Hdown NG US Hw.
  pose proof facts as (FB & FT & FD & FN & FS). pose proof div_close as DC.
  unfold size_rho, rI_rho, I_rho. fold (qB p).
  destruct (es_std p);
  try (eapply (near_weaken u); [assumption|assumption|nr| | | ]; [cbn; lia|apply Qle_refl|reflexivity]);
  (eapply (near_weaken u); [assumption|assumption|nr; apply FS| | |]; [cbn; lia|apply Qle_refl|reflexivity]).
Qed.
Lemma theta_near : near 9 (size_theta p w) (rI_theta R p w) (I_theta p w).
Proof using SM Hu Hup Hdown NG US Hw.
  pose proof facts as (FB & FT & FD & FN & FS). unfold size_theta, rI_theta, I_theta.
  eapply (near_weaken u); [assumption|assumption|nr; exact FT| | |]; [cbn; lia| |reflexivity].
  assert (Z : ~ duration p (es_tRAS p) == 0) by (intros E; apply (Qlt_not_eq _ _ FT); symmetry; exact E).
  apply Qle_eq. field. exact Z.
Qed.
Lemma I1_near : near 14 (size_1 p w) (rI_1 R p w) (I_1 p w).
Proof using SM Hu Hup Hdown NG US Hw.
  pose proof facts as (FB & FT & FD & FN & FS). pose proof rho_near as HR.
  unfold size_1, rI_1, I_1. fold (qB p).
  destruct (es_std p);
  try (eapply (near_weaken u); [assumption|assumption|exact near_i3n| | |]; [cbn; lia|apply Qle_refl|reflexivity]);
  (eapply (near_weaken u); [assumption|assumption|nr; exact FB| | |]; [cbn; lia|apply Qle_eq|];
   rewrite (qn_pred _ FN); change (qnat (es_banks p)) with (qB p); field; lra).
Qed.
Lemma IB_near : near 18 (size_B p w) (rI_B R p w) (I_B p w).
Proof using SM Hu Hup Hdown NG US Hw.
  pose proof rho_near as HR. pose proof I1_near as H1.
  unfold size_B, rI_B, I_B. fold (qB p).
  destruct (es_std p); (eapply (near_weaken u); [assumption|assumption|nr| | |]; [cbn; lia|apply Qle_refl|reflexivity]).
Qed.
Lemma IBG_near : near 18 (size_BG p w) (rI_BG R p w) (I_BG p w).
Proof using SM Hu Hup Hdown NG US Hw.
  pose proof rho_near as HR. pose proof I1_near as H1.
  unfold size_BG, rI_BG, I_BG. fold (qBG p).
  (eapply (near_weaken u); [assumption|assumption|nr| | |]; [cbn; lia|apply Qle_refl|reflexivity]).
Qed.
Lemma I2_near : near 16 (size_2 p w) (rI_2 R p w) (I_2 p w).
Proof using SM Hu Hup Hdown NG US Hw.
  pose proof rho_near as HR. pose proof I1_near as H1.
  unfold size_2, rI_2, I_2.
  (eapply (near_weaken u); [assumption|assumption|nr| | |]; [cbn; lia|apply Qle_refl|reflexivity]).
Qed.
Lemma I5_near : match es_std p with DDR4 | DDR5 => True | _ => near 14 (size_5 p w) (rIDD5_B R p w) (IDD5_B p w) end.
Proof using SM Hu Hup Hdown NG US Hw.
  pose proof facts as (FB & FT & FD & FN & FS).
  assert (G : 0 < t_rfcs p -> near 14 (size_5 p w) (rIDD5_B R p w) (IDD5_B p w)).
  { intros P. unfold size_5, rIDD5_B, IDD5_B.
    (eapply (near_weaken u); [assumption|assumption|nr| | |]; [lra|lra|exact P|cbn; lia| |reflexivity]).
    assert (Z : ~ duration p (es_tRFCs p) == 0) by (intros E; apply (Qlt_not_eq _ _ P); symmetry; exact E).
    apply Qle_eq. field. exact Z. }
  destruct (es_std p); trivial; apply G; apply FS.
Qed.

Definition enear (n : nat) (a b c : energy_info) : Prop := forall k, near n (comp_at a k) (comp_at b k) (comp_at c k).

Lemma zero_near n : near n 0 0 0.
Proof using Hu Hup. eapply (near_weaken u); [assumption|assumption|apply near_0| | |]; [lia|lra|reflexivity]. Qed.

Lemma beats_near read : near 3 (beats p read) (match es_std p with DDR4 | DDR5 => if read then r_div R (r_of R (es_bl p)) (r_of R (es_dr p)) else r_of R (es_bl p / es_dr p) | _ => r_of R (es_bl p / es_dr p) end) (beats p read).
Proof using SM Hu Hup Hdown NG US.
  pose proof facts as (FB & FT & FD & FN & FS). unfold beats.
  destruct (es_std p), read; try (eapply (near_weaken u); [assumption|assumption|nr| | |]; [cbn; lia|apply Qle_refl|reflexivity]).
  all: (eapply (near_weaken u); [assumption|assumption|nr; exact FD| | |]; [cbn; lia|apply Qle_refl|reflexivity]).
Qed.

Lemma bank_near k r : enear 28 (size_info p w k r) (rbank_energy R p w k r) (bank_energy p w k r).
Proof using SM Hu Hup Hdown NG US Hw.
  pose proof facts as (FB & FT & FD & FN & FS).
  pose proof rho_near as HR. pose proof theta_near as HT. pose proof I1_near as H1. pose proof IB_near as HB. pose proof IBG_near as HG. pose proof I2_near as H2. pose proof I5_near as H5.
  pose proof (beats_near true) as Bt. pose proof (beats_near false) as Bf.
  intros c. destruct c; cbn [comp_at size_info rbank_energy bank_energy e_act e_pre e_bg_act e_bg_pre e_rd e_wr e_rda e_wra e_pre_rda e_pre_wra e_ref_ab e_ref_pb e_ref_sb e_ref_2b e_ref_db];
  unfold rE_times, rE_BG_act_star, rE_BG_pre, rE_ref_ab, rE_ref_sb, rE_ref_half, rE_RD_double, rE_RW_int, E_act, E_pre, E_BG_act_star, E_BG_pre, E_RD_double, E_RW_int, E_ref_ab, E_ref_pb, E_ref_sb, E_ref_half, size_burst, burst_clock;
  fold (qB p) (qBG p).
  1,2,3,9,10: (eapply (near_weaken u); [assumption|assumption|nr| | |]; [cbn; lia|apply Qle_refl|reflexivity]).
  1: (eapply (near_weaken u); [assumption|assumption|nr; exact FB| | |]; [cbn; lia|apply Qle_eq; change (qnat (es_banks p)) with (qB p); field; lra|unfold duration; ring]).
  1,2,3,4: unfold beats in *; destruct (es_std p); try destruct (es_mbg p); (eapply (near_weaken u); [assumption|assumption|nr; exact FD| | |]; [cbn; lia|apply Qle_refl|reflexivity]).
  1: (eapply (near_weaken u); [assumption|assumption|nr; exact FB| | |]; [cbn; lia|apply Qle_eq; change (qnat (es_banks p)) with (qB p); field; lra|unfold duration, t_rfc; ring]).
  1: destruct (es_std p); try apply zero_near; (eapply (near_weaken u); [assumption|assumption|nr| | |]; [cbn; lia|apply Qle_refl|reflexivity]).
  1: destruct (es_std p); try apply zero_near; (eapply (near_weaken u); [assumption|assumption|nr; exact FS| | |]; [cbn; lia|apply Qle_eq; change (qnat (es_groups p)) with (qBG p); field; lra|reflexivity]).
  1,2: destruct (es_std p); try apply zero_near; (eapply (near_weaken u); [assumption|assumption|nr| | |]; [cbn; lia|apply Qle_eq; field|reflexivity]).
Qed.

Lemma rank_near r : 0 <= size_rank p w r /\
  near 27 (pw_v w * size_rho p w * duration p (cy_act (cs_cycles r)) * qD p) (r_mul R (rE_BG_act_shared R (pw_v w) (rI_rho R p w) (rtime R p (cy_act (cs_cycles r)))) (rD R p)) (E_BG_act_shared (pw_v w) (I_rho p w) (qn (cy_act (cs_cycles r)) * es_tCK p) * qD p) /\
  (forall i n, near 0 i i i -> near 27 (pw_v w * i * qn n * es_tCK p * qD p) (r_mul R (r_mul R (r_mul R (r_mul R (pw_v w) i) (r_of R n)) (es_tCK p)) (rD R p)) (pw_v w * i * qn n * es_tCK p * qD p)).
Proof using SM Hu Hup Hdown NG US Hw.
  pose proof rho_near as HR.
  split; [|split].
  - unfold size_rank. pose proof (ng_power _ NG w Hw).
    assert (T : forall n, 0 <= duration p n) by (intros n; unfold duration; apply mul_pos; [apply qn_pos|apply (ng_tck _ NG)]).
    assert (0 <= size_rho p w) by (apply (near_size u _ Hu Hup _ _ _ _ HR)).
    apply mul_pos; [apply mul_pos; [tauto|apply qnat_nonneg]|].
    assert (0 <= size_rho p w * duration p (cy_act (cs_cycles r))) by (apply mul_pos; [assumption|apply T]).
    assert (0 <= pw_i3p w * duration p (cy_pda (cs_cycles r))) by (apply mul_pos; [tauto|apply T]).
    assert (0 <= pw_i2p w * duration p (cy_pdp (cs_cycles r))) by (apply mul_pos; [tauto|apply T]).
    assert (0 <= pw_i6 w * duration p (cy_sref (cs_cycles r))) by (apply mul_pos; [tauto|apply T]).
    assert (0 <= pw_i6ds w * duration p (cy_dsm (cs_cycles r))) by (apply mul_pos; [tauto|apply T]).
    destruct (es_std p); lra.
  - unfold rE_BG_act_shared, E_BG_act_shared. (eapply (near_weaken u); [assumption|assumption|nr| | |]; [cbn; lia|apply Qle_refl|reflexivity]).
  - intros i n Hi. (eapply (near_weaken u); [assumption|assumption|nr| | |]; [cbn; lia|apply Qle_refl|reflexivity]).
Qed.
End Domain.

(* ------------------------------------------------------------------ *)
(* The loops                                                           *)
(* ------------------------------------------------------------------ *)
Lemma near_more n m x y n' : near n m x y -> (n <= n')%nat -> near n' m x y.
Proof using Hu Hup. intros H L. eapply (near_weaken u); [assumption|assumption|exact H|exact L|apply Qle_refl|reflexivity]. Qed.
Lemma enear_more n a b c n' : enear n a b c -> (n <= n')%nat -> enear n' a b c.
Proof using Hu Hup. intros H L k. eapply near_more; [apply H|exact L]. Qed.
Lemma comp_radd a b c : comp_at (rei_add R a b) c = r_add R (comp_at a c) (comp_at b c).
Proof using. destruct c; reflexivity. Qed.
Lemma enear_add n a b c n' a' b' c' : enear n a b c -> enear n' a' b' c' -> enear (max n n' + 1) (ei_add a a') (rei_add R b b') (ei_add c c').
Proof using SM Hu Hup. intros H H' k. rewrite !comp_add, comp_radd. apply (near_add R u); auto. Qed.

(* the slots up to lo have got one more rounding than the others *)
Definition slots (n lo : nat) (la lb lc : list energy_info) : Prop :=
  forall j, match nth_error la j, nth_error lb j, nth_error lc j with
  | Some a, Some b, Some c => enear (if (j <? lo)%nat then n + 1 else n) a b c
  | None, None, None => True
  | _, _, _ => False
  end.
Lemma slots_more n lo la lb lc : slots n lo la lb lc -> slots (n + 1) 0 la lb lc.
Proof using Hu Hup.
  intros H j. specialize (H j). destruct (nth_error la j), (nth_error lb j), (nth_error lc j); trivial.
  eapply enear_more; [exact H|]. replace (j <? 0)%nat with false by (symmetry; apply Nat.ltb_ge; lia). destruct (j <? lo)%nat; lia.
Qed.
Lemma slots_upd n lo la lb lc a b c : (28 <= n)%nat -> enear 28 a b c -> slots n lo la lb lc ->
  slots n (lo + 1) (upd lo (fun x => ei_add x a) la) (upd lo (fun x => rei_add R x b) lb) (upd lo (fun x => ei_add x c) lc).
Proof using SM Hu Hup.
  intros L E H j. specialize (H j). rewrite !nth_error_upd.
  destruct (j =? lo)%nat eqn:Ej.
  - apply Nat.eqb_eq in Ej. subst j.
    replace (lo <? lo + 1)%nat with true by (symmetry; apply Nat.ltb_lt; lia).
    replace (lo <? lo)%nat with false in H by (symmetry; apply Nat.ltb_ge; lia).
    destruct (nth_error la lo), (nth_error lb lo), (nth_error lc lo); cbn; trivial.
    eapply enear_more; [apply enear_add; [exact H|exact E]|lia].
  - apply Nat.eqb_neq in Ej.
    destruct (nth_error la j), (nth_error lb j), (nth_error lc j); trivial.
    eapply enear_more; [exact H|]. destruct (j <? lo)%nat eqn:E1, (j <? lo + 1)%nat eqn:E2; try lia.
Qed.
Lemma slots_nil n lo k : slots n lo (repeat ei_zero k) (repeat ei_zero k) (repeat ei_zero k).
Proof using Hu Hup.
  intros j. destruct (nth_error (repeat ei_zero k) j) as [x|] eqn:E; trivial.
  apply nth_error_In, repeat_spec in E. subst x. intros c. rewrite comp_zero. apply zero_near.
Qed.
Lemma slots_tail n lo a la b lb c lc : slots n lo (a :: la) (b :: lb) (c :: lc) -> enear (n + 1) a b c /\ slots n (lo - 1) la lb lc.
Proof using Hu Hup.
  intros H. split.
  - specialize (H 0%nat). cbn [nth_error] in H. eapply enear_more; [exact H|]. destruct (0 <? lo)%nat; lia.
  - intros j. specialize (H (S j)). cbn [nth_error] in H.
    destruct (nth_error la j), (nth_error lb j), (nth_error lc j); trivial.
    eapply enear_more; [exact H|]. destruct (S j <? lo)%nat eqn:E1, (j <? lo - 1)%nat eqn:E2; try lia.
Qed.
Lemma fold_near n la : forall lo lb lc a b c k, slots n lo la lb lc -> (n + 1 <= k)%nat -> enear k a b c ->
  enear (k + length lc) (fold_left ei_add la a) (fold_left (rei_add R) lb b) (fold_left ei_add lc c).
Proof using SM Hu Hup.
  induction la as [|x la IH]; intros lo lb lc a b c k H L E.
  - pose proof (H 0%nat) as H0. destruct lb; [|exfalso; exact H0]. destruct lc; [|exfalso; exact H0]. cbn. eapply enear_more; [exact E|lia].
  - pose proof (H 0%nat) as H0. destruct lb as [|y lb]; [exfalso; exact H0|]. destruct lc as [|z lc]; [exfalso; exact H0|].
    apply slots_tail in H. destruct H as [Hx Hr]. cbn [fold_left length].
    replace (k + S (length lc))%nat with ((k + 1) + length lc)%nat by lia.
    eapply IH; [exact Hr|lia|]. eapply enear_more; [apply enear_add; [exact E|exact Hx]|lia].
Qed.

Definition scalars (n : nat) (a b c : energy) : Prop :=
  near n (en_shared a) (en_shared b) (en_shared c) /\ near n (en_pdna a) (en_pdna b) (en_pdna c) /\ near n (en_pdnp a) (en_pdnp b) (en_pdnp c) /\
  near n (en_sref a) (en_sref b) (en_sref c) /\ near n (en_dsm a) (en_dsm b) (en_dsm c) /\ near n (en_refab a) (en_refab b) (en_refab c).
Definition inv (nb lo ns : nat) (a b c : energy) : Prop := slots nb lo (en_bank a) (en_bank b) (en_bank c) /\ scalars ns a b c.

Lemma rtotal_near nb lo ns a b c : inv nb lo ns a b c ->
  near (max (nb + length (en_bank c)) ns + 20) (en_total a) (ren_total R b) (en_total c).
Proof using SM Hu Hup.
  intros [Hs (H1 & H2 & H3 & H4 & H5 & H6)].
  assert (F : enear (nb + 1 + length (en_bank c)) (fold_left ei_add (en_bank a) ei_zero) (fold_left (rei_add R) (en_bank b) ei_zero) (fold_left ei_add (en_bank c) ei_zero)).
  { eapply fold_near; [exact Hs|lia|]. intros k. rewrite comp_zero. apply zero_near. }
  set (fa := fold_left ei_add (en_bank a) ei_zero) in *. set (fb := fold_left (rei_add R) (en_bank b) ei_zero) in *. set (fc := fold_left ei_add (en_bank c) ei_zero) in *.
  set (k := (nb + 1 + length (en_bank c))%nat) in *.
  assert (T : near (k + 12) (ei_total fa) (rei_total R fb) (ei_total fc)).
  { unfold ei_total, rei_total. eapply near_more.
    - repeat (eapply (near_add R u rho SM Hu Hup); [|first [exact (F CAct)|exact (F CPre)|exact (F CBgAct)|exact (F CBgPre)|exact (F CRd)|exact (F CWr)|exact (F CRda)|exact (F CWra)|exact (F CRefAB)|exact (F CRefPB)|exact (F CRefSB)|exact (F CRef2B)|exact (F CRefDB)]]).
      exact (F CAct).
    - lia. }
  unfold en_total, ren_total. fold fa fb fc.
  eapply near_more.
  - eapply (near_add R u rho SM Hu Hup); [apply near_0|].
    repeat (eapply (near_add R u rho SM Hu Hup); [|first [exact H6|exact H5|exact H4|exact H3|exact H2|exact H1]]). exact T.
  - unfold k. lia.
Qed.

Lemma qsum_upd {A} (f : A -> Q) (g : A -> A) s l : (forall x, f (g x) == f x + s) -> 0 <= s -> forall j, qsum f (upd j g l) <= qsum f l + s.
Proof using.
  intros H S. induction l as [|x l IH]; intros j; [cbn; destruct j; cbn; lra|].
  destruct j; cbn [upd]; rewrite !qsum_cons; [rewrite H; lra|]. specialize (IH j). lra.
Qed.
Lemma stuck {A B} (f : calc B -> A -> calc B) l x : (forall b a, f b a = match b with Exactly e => f (Exactly e) a | y => y end) ->
  (forall e, x <> Exactly e) -> forall e, fold_left f l x <> Exactly e.
Proof using.
  intros H. revert x. induction l as [|a l IH]; intros x Hx e; cbn; [apply Hx|].
  apply IH. intros e'. rewrite H. destruct x; [exfalso; eapply Hx; reflexivity|discriminate|discriminate].
Qed.

Lemma size_bank_nonneg w k r : In w (es_domains p) -> 0 <= size_bank p w k r.
Proof using SM Hu Hup Hdown NG US.
  intros Hw. unfold size_bank. apply qsum_nonneg. intros c _. apply (near_size u _ Hu Hup _ _ _ _ (bank_near w Hw k r c)).
Qed.

Section Loops.
Variable w : power.
Hypothesis Hw : In w (es_domains p).
Variable st : sim_stats.

Definition bank_size (i b : nat) (r : cycle_stats) : Q := match nth_error (ss_bank st) (i * es_banks p + b) with Some k => size_bank p w k r | None => 0 end.

Definition bstep (i d : nat) (acc : calc energy) (b : nat) : calc energy :=
  match acc with
  | Exactly e =>
      match nth_error (ss_bank st) (i * es_banks p + b)%nat, nth_error (ss_rank st) i with
      | Some k, Some r =>
          Exactly (mkE (upd (i * es_devices p * es_banks p + d * es_banks p + b) (fun x => ei_add x (bank_energy p w k r)) (en_bank e))
            (en_shared e) (en_pdna e) (en_pdnp e) (en_sref e) (en_dsm e) (en_refab e))
      | _, _ => Undefined_calc
      end
  | x => x
  end.
Definition rbstep (i d : nat) (acc : calc energy) (b : nat) : calc energy :=
  match acc with
  | Exactly e =>
      match nth_error (ss_bank st) (i * es_banks p + b)%nat, nth_error (ss_rank st) i with
      | Some k, Some r =>
          Exactly (mkE (upd (i * es_devices p * es_banks p + d * es_banks p + b) (fun x => rei_add R x (rbank_energy R p w k r)) (en_bank e))
            (en_shared e) (en_pdna e) (en_pdnp e) (en_sref e) (en_dsm e) (en_refab e))
      | _, _ => Undefined_calc
      end
  | x => x
  end.
Lemma bank_steps i d r nb ns : nth_error (ss_rank st) i = Some r -> (28 <= nb)%nat -> forall len a em er e e1,
  inv nb (i * es_devices p * es_banks p + d * es_banks p + a) ns em er e ->
  fold_left (bstep i d) (seq a len) (Exactly e) = Exactly e1 ->
  exists em1 er1,
  fold_left (rbstep i d) (seq a len) (Exactly er) = Exactly er1 /\
  inv nb (i * es_devices p * es_banks p + d * es_banks p + a + len) ns em1 er1 e1 /\
  en_total em1 <= en_total em + qsum (fun b => bank_size i b r) (seq a len).
Proof using SM Hu Hup Hdown NG US Hw.
  intros Hr Hnb. induction len as [|len IH]; intros a em er e e1 HI HE.
  - cbn [seq fold_left] in *. exists em, er. split; [reflexivity|]. injection HE as <-. rewrite Nat.add_0_r. split; [exact HI|]. rewrite qsum_nil. lra.
  - cbn [seq fold_left] in *. rewrite qsum_cons.
    destruct (nth_error (ss_bank st) (i * es_banks p + a)) as [k|] eqn:Ek.
    2: { exfalso. unfold bstep at 2 in HE. rewrite Ek in HE. revert HE. apply stuck; [intros [| |] x; reflexivity|discriminate]. }
    set (j := (i * es_devices p * es_banks p + d * es_banks p + a)%nat) in *.
    assert (B1 : bstep i d (Exactly e) a = Exactly (mkE (upd j (fun x => ei_add x (bank_energy p w k r)) (en_bank e)) (en_shared e) (en_pdna e) (en_pdnp e) (en_sref e) (en_dsm e) (en_refab e))) by (unfold bstep; rewrite Ek, Hr; reflexivity).
    assert (B2 : rbstep i d (Exactly er) a = Exactly (mkE (upd j (fun x => rei_add R x (rbank_energy R p w k r)) (en_bank er)) (en_shared er) (en_pdna er) (en_pdnp er) (en_sref er) (en_dsm er) (en_refab er))) by (unfold rbstep; rewrite Ek, Hr; reflexivity).
    rewrite B1 in HE. rewrite B2.
    pose (em' := mkE (upd j (fun x => ei_add x (size_info p w k r)) (en_bank em)) (en_shared em) (en_pdna em) (en_pdnp em) (en_sref em) (en_dsm em) (en_refab em)).
    destruct (IH (S a) em' (mkE (upd j (fun x => rei_add R x (rbank_energy R p w k r)) (en_bank er)) (en_shared er) (en_pdna er) (en_pdnp er) (en_sref er) (en_dsm er) (en_refab er))
      (mkE (upd j (fun x => ei_add x (bank_energy p w k r)) (en_bank e)) (en_shared e) (en_pdna e) (en_pdnp e) (en_sref e) (en_dsm e) (en_refab e)) e1) as (em1 & er1 & G1 & G2 & G3); [|exact HE|].
    { destruct HI as [Hs Hc]. split; [|exact Hc]. replace (i * es_devices p * es_banks p + d * es_banks p + S a)%nat with (j + 1)%nat by (unfold j; lia).
      cbn [en_bank em']. apply slots_upd; [exact Hnb|apply bank_near; exact Hw|exact Hs]. }
    exists em1, er1. split; [exact G1|]. split.
    + replace (j + S len)%nat with (i * es_devices p * es_banks p + d * es_banks p + S a + len)%nat by (unfold j; lia). exact G2.
    + eapply Qle_trans; [exact G3|].
      assert (en_total em' <= en_total em + bank_size i a r); [|lra].
      unfold bank_size. rewrite Ek.
      rewrite !total_is_sum. cbn [em' en_bank en_shared en_pdna en_pdnp en_sref en_dsm en_refab].
      assert (qsum (fun x => qsum (comp_at x) counted) (upd j (fun x => ei_add x (size_info p w k r)) (en_bank em)) <= qsum (fun x => qsum (comp_at x) counted) (en_bank em) + size_bank p w k r); [|lra].
      apply qsum_upd; [|apply size_bank_nonneg; exact Hw].
      intros x. unfold size_bank. rewrite <- qsum_plus. apply qsum_ext. intros c _. rewrite comp_add. reflexivity.
Qed.

Lemma bank_loop_near i d r nb ns em er e e1 : nth_error (ss_rank st) i = Some r -> (28 <= nb)%nat ->
  inv nb (i * es_devices p * es_banks p + d * es_banks p) ns em er e -> bank_loop p w st i d e = Exactly e1 ->
  exists em1 er1, rbank_loop R p w st i d er = Exactly er1 /\ inv nb (i * es_devices p * es_banks p + (d + 1) * es_banks p) ns em1 er1 e1 /\
    en_total em1 <= en_total em + qsum (fun b => bank_size i b r) (seq 0 (es_banks p)).
Proof using SM Hu Hup Hdown NG US Hw.
  intros Hr Hn HI HE. unfold bank_loop in HE.
  destruct (bank_steps i d r nb ns Hr Hn (es_banks p) 0 em er e e1) as (em1 & er1 & G1 & G2 & G3); [rewrite Nat.add_0_r; exact HI|exact HE|].
  exists em1, er1. split; [exact G1|]. split; [|exact G3].
  replace (i * es_devices p * es_banks p + (d + 1) * es_banks p)%nat with (i * es_devices p * es_banks p + d * es_banks p + 0 + es_banks p)%nat by lia. exact G2.
Qed.
Lemma device_steps i r nb ns : nth_error (ss_rank st) i = Some r -> (28 <= nb)%nat -> forall len a em er e e1,
  inv nb (i * es_devices p * es_banks p + a * es_banks p) ns em er e ->
  fold_left (fun acc d => match acc with Exactly e => bank_loop p w st i d e | x => x end) (seq a len) (Exactly e) = Exactly e1 ->
  exists em1 er1, fold_left (fun acc d => match acc with Exactly e => rbank_loop R p w st i d e | x => x end) (seq a len) (Exactly er) = Exactly er1 /\
    inv nb (i * es_devices p * es_banks p + (a + len) * es_banks p) ns em1 er1 e1 /\
    en_total em1 <= en_total em + qsum (fun _ => qsum (fun b => bank_size i b r) (seq 0 (es_banks p))) (seq a len).
Proof using SM Hu Hup Hdown NG US Hw.
  intros Hr Hn. induction len as [|len IH]; intros a em er e e1 HI HE.
  - cbn [seq fold_left] in *. exists em, er. split; [reflexivity|]. injection HE as <-. rewrite Nat.add_0_r. split; [exact HI|]. rewrite qsum_nil. lra.
  - cbn [seq fold_left] in *. rewrite qsum_cons.
    destruct (bank_loop p w st i a e) as [e'| |] eqn:Eb.
    2,3: exfalso; revert HE; apply stuck; [intros [| |] x; reflexivity|discriminate].
    destruct (bank_loop_near i a r nb ns em er e e' Hr Hn HI Eb) as (em' & er' & G1 & G2 & G3). rewrite G1.
    destruct (IH (S a) em' er' e' e1) as (em1 & er1 & F1 & F2 & F3); [replace (S a) with (a + 1)%nat by lia; exact G2|exact HE|].
    exists em1, er1. split; [exact F1|]. split; [replace (a + S len)%nat with (S a + len)%nat by lia; exact F2|]. lra.
Qed.
Lemma rank_steps nb : (28 <= nb)%nat -> forall len a ns em er e e1, (27 <= ns)%nat ->
  inv nb (a * es_devices p * es_banks p) ns em er e ->
  fold_left (fun acc i =>
    match acc with
    | Exactly e =>
        match device_loop p w st i e with
        | Exactly e => match nth_error (ss_rank st) i with Some r => Exactly (rank_energy p w r e) | None => Undefined_calc end
        | x => x
        end
    | x => x
    end) (seq a len) (Exactly e) = Exactly e1 ->
  exists em1 er1,
  fold_left (fun acc i =>
    match acc with
    | Exactly e =>
        match rdevice_loop R p w st i e with
        | Exactly e => match nth_error (ss_rank st) i with Some r => Exactly (rrank_energy R p w r e) | None => Undefined_calc end
        | x => x
        end
    | x => x
    end) (seq a len) (Exactly er) = Exactly er1 /\
    inv nb ((a + len) * es_devices p * es_banks p) (ns + len) em1 er1 e1 /\ en_total em1 <= en_total em + qsum (size_of_rank p w st) (seq a len).
Proof using SM Hu Hup Hdown NG US Hw.
  intros Hn. induction len as [|len IH]; intros a ns em er e e1 Hns HI HE.
  - cbn [seq fold_left] in *. exists em, er. split; [reflexivity|]. injection HE as <-. rewrite !Nat.add_0_r. split; [exact HI|]. rewrite qsum_nil. lra.
  - cbn [seq fold_left] in *. rewrite qsum_cons.
    destruct (nth_error (ss_rank st) a) as [r|] eqn:Er.
    2: { exfalso; revert HE; apply stuck; [intros [| |] x; reflexivity|]. destruct (device_loop p w st a e); discriminate. }
    destruct (device_loop p w st a e) as [e'| |] eqn:Ed.
    2,3: exfalso; revert HE; apply stuck; [intros [| |] x; reflexivity|discriminate].
    unfold device_loop in Ed.
    destruct (device_steps a r nb ns Er Hn (es_devices p) 0 em er e e') as (em' & er' & G1 & G2 & G3); [rewrite Nat.add_0_r; exact HI|exact Ed|].
    unfold rdevice_loop at 2. rewrite G1.
    destruct (rank_near w Hw r) as (S0 & S1 & S2).
    pose (em2 := mkE (en_bank em') (en_shared em' + pw_v w * size_rho p w * duration p (cy_act (cs_cycles r)) * qD p)
      (en_pdna em' + pw_v w * pw_i3p w * qn (cy_pda (cs_cycles r)) * es_tCK p * qD p) (en_pdnp em' + pw_v w * pw_i2p w * qn (cy_pdp (cs_cycles r)) * es_tCK p * qD p)
      (en_sref em' + pw_v w * pw_i6 w * qn (cy_sref (cs_cycles r)) * es_tCK p * qD p)
      (match es_std p with LPDDR5 | LPDDR6 => en_dsm em' + pw_v w * pw_i6ds w * qn (cy_dsm (cs_cycles r)) * es_tCK p * qD p | _ => en_dsm em' end) (en_refab em')).
    destruct (IH (S a) (ns + 1)%nat em2 (rrank_energy R p w r er') (rank_energy p w r e') e1) as (em1 & er1 & F1 & F2 & F3); [lia| |exact HE|].
    { destruct G2 as [Hs (H1 & H2 & H3 & H4 & H5 & H6)]. split.
      - cbn [em2 rrank_energy rank_energy en_bank].
        replace (S a * es_devices p * es_banks p)%nat with (a * es_devices p * es_banks p + (0 + es_devices p) * es_banks p)%nat by lia. exact Hs.
      - assert (M : forall m x y m' x' y', near ns m x y -> near 27 m' x' y' -> near (ns + 1) (m + m') (r_add R x x') (y + y')).
        { intros. eapply near_more; [eapply (near_add R u rho SM Hu Hup); eassumption|lia]. }
        unfold scalars. cbn [em2 rrank_energy rank_energy en_shared en_pdna en_pdnp en_sref en_dsm en_refab].
        split; [apply M; assumption|]. split; [apply M; [assumption|apply S2; apply near_i3p; exact Hw]|]. split; [apply M; [assumption|apply S2; apply near_i2p; exact Hw]|].
        split; [apply M; [assumption|apply S2; apply near_i6; exact Hw]|]. split; [|eapply near_more; [exact H6|lia]].
        destruct (es_std p); try (eapply near_more; [exact H5|lia]); apply M; try assumption; apply S2; apply near_i6ds; exact Hw. }
    exists em1, er1. split; [exact F1|]. split; [replace (a + S len)%nat with (S a + len)%nat by lia; replace (ns + S len)%nat with (ns + 1 + len)%nat by lia; exact F2|].
    eapply Qle_trans; [exact F3|].
    assert (T : en_total em2 == en_total em' + size_rank p w r).
    { rewrite !total_is_sum. unfold em2, size_rank, duration. cbn [en_bank en_shared en_pdna en_pdnp en_sref en_dsm en_refab].
      change (qnat (es_devices p)) with (qD p). destruct (es_std p); ring. }
    rewrite T. unfold size_of_rank at 2. rewrite Er. unfold bank_size in G3. lra.
Qed.
End Loops.

Lemma domain_steps st : forall l nb ns em er e e1, (forall w, In w l -> In w (es_domains p)) -> (28 <= nb)%nat -> (27 <= ns)%nat ->
  inv nb 0 ns em er e ->
  fold_left (fun acc w => match acc with Exactly e => rank_loop p w st e | x => x end) l (Exactly e) = Exactly e1 ->
  exists em1 er1, fold_left (fun acc w => match acc with Exactly e => rrank_loop R p w st e | x => x end) l (Exactly er) = Exactly er1 /\
    inv (nb + length l) 0 (ns + length l * es_ranks p) em1 er1 e1 /\
    en_total em1 <= en_total em + qsum (fun w => qsum (size_of_rank p w st) (seq 0 (es_ranks p))) l.
Proof using SM Hu Hup Hdown NG US.
  induction l as [|w l IH]; intros nb ns em er e e1 Hin Hn Hns HI HE.
  - cbn [fold_left length] in *. exists em, er. split; [reflexivity|]. injection HE as <-. cbn. rewrite !Nat.add_0_r. split; [exact HI|]. lra.
  - cbn [fold_left length] in *. rewrite qsum_cons.
    destruct (rank_loop p w st e) as [e'| |] eqn:Er.
    2,3: exfalso; revert HE; apply stuck; [intros [| |] x; reflexivity|discriminate].
    unfold rank_loop in Er.
    destruct (rank_steps w (Hin w (or_introl eq_refl)) st nb Hn (es_ranks p) 0 ns em er e e' Hns) as (em' & er' & G1 & G2 & G3); [cbn; exact HI|exact Er|].
    unfold rrank_loop at 2. rewrite G1.
    destruct (IH (nb + 1)%nat (ns + es_ranks p)%nat em' er' e' e1) as (em1 & er1 & F1 & F2 & F3).
    + intros x Hx. apply Hin. right. exact Hx.
    + lia.
    + lia.
    + destruct G2 as [Hs Hc]. split; [eapply slots_more; exact Hs|exact Hc].
    + exact HE.
    + exists em1, er1. split; [exact F1|]. split; [|lra].
      replace (nb + S (length l))%nat with (nb + 1 + length l)%nat by lia.
      replace (ns + S (length l) * es_ranks p)%nat with (ns + es_ranks p + length l * es_ranks p)%nat by lia. exact F2.
Qed.

Lemma rfinite_ok : rfinite R p = true.
Proof using SM Hu Hup Hdown NG US.
  pose proof facts as (FB & FT & FD & FN & FS). unfold rfinite.
  assert (Z : forall n x y, close n x y -> 0 < y -> negb (Qeq_bool x 0) = true).
  { intros n x y H P. apply Qeq_bool_nz. pose proof (close_pos u rho Hu Hup n x y H P). lra. }
  rewrite (Z _ _ _ B_close FB), (Z _ _ _ (time_close (es_tRAS p)) FT), (Z _ _ _ (of_close (es_dr p)) FD). cbn [andb].
  pose proof div_close as DC.
  destruct (es_std p); [reflexivity|exact (Z _ _ _ BG_close FS)| | |]; destruct FS as [F1 F2]; rewrite (Z _ _ _ DC F1), (Z _ _ _ (time_close (es_tRFCs p)) F2); reflexivity.
Qed.

Lemma bank_loop_length w st i d e e1 : bank_loop p w st i d e = Exactly e1 -> length (en_bank e1) = length (en_bank e).
Proof using.
  unfold bank_loop. generalize (seq 0 (es_banks p)) as l. intros l. revert e.
  induction l as [|b l IH]; intros e H; cbn [fold_left] in H; [injection H as <-; reflexivity|].
  destruct (nth_error (ss_bank st) (i * es_banks p + b)), (nth_error (ss_rank st) i);
    try (exfalso; revert H; apply stuck; [intros [| |] x; reflexivity|discriminate]).
  apply IH in H. rewrite H. cbn [en_bank]. apply length_upd.
Qed.
Lemma device_loop_length w st i e e1 : device_loop p w st i e = Exactly e1 -> length (en_bank e1) = length (en_bank e).
Proof using.
  unfold device_loop. generalize (seq 0 (es_devices p)) as l. intros l. revert e.
  induction l as [|b l IH]; intros e H; cbn [fold_left] in H; [injection H as <-; reflexivity|].
  destruct (bank_loop p w st i b e) as [e'| |] eqn:E; try (exfalso; revert H; apply stuck; [intros [| |] x; reflexivity|discriminate]).
  apply IH in H. rewrite H. eapply bank_loop_length. exact E.
Qed.
Lemma rank_loop_length w st e e1 : rank_loop p w st e = Exactly e1 -> length (en_bank e1) = length (en_bank e).
Proof using.
  unfold rank_loop. generalize (seq 0 (es_ranks p)) as l. intros l. revert e.
  induction l as [|b l IH]; intros e H; cbn [fold_left] in H; [injection H as <-; reflexivity|].
  destruct (device_loop p w st b e) as [e'| |] eqn:E; try (exfalso; revert H; apply stuck; [intros [| |] x; reflexivity|discriminate]).
  destruct (nth_error (ss_rank st) b); try (exfalso; revert H; apply stuck; [intros [| |] x; reflexivity|discriminate]).
  apply IH in H. rewrite H. cbn [rank_energy en_bank]. eapply device_loop_length. exact E.
Qed.
Lemma calc_length st e1 : calc_energy p st = Exactly e1 -> length (en_bank e1) = (es_banks p * es_ranks p * es_devices p)%nat.
Proof using.
  unfold calc_energy. destruct (es_dr p =? 0)%N; [discriminate|]. destruct (finite_domain p); [|discriminate].
  assert (G : forall l e, fold_left (fun acc w => match acc with Exactly e => rank_loop p w st e | x => x end) l (Exactly e) = Exactly e1 -> length (en_bank e1) = length (en_bank e)).
  { induction l as [|b l IH]; intros e H; cbn [fold_left] in H; [injection H as <-; reflexivity|].
    destruct (rank_loop p b st e) as [e'| |] eqn:E; try (exfalso; revert H; apply stuck; [intros [| |] x; reflexivity|discriminate]).
    apply IH in H. rewrite H. eapply rank_loop_length. exact E. }
  intros H. apply G in H. rewrite H. cbn [energy0 en_bank]. apply repeat_length.
Qed.

Theorem core_near st e : calc_energy p st = Exactly e ->
  exists e', rcalc_energy R p st = Exactly e' /\ near (roundings p) (size_of_energy p st) (ren_total R e') (en_total e).
Proof using SM Hu Hup Hdown NG US.
  intros H. pose proof (calc_length st e H) as HL.
  unfold calc_energy in H. unfold rcalc_energy. destruct US as [Hd Hf]. rewrite Hf in H. rewrite rfinite_ok.
  replace (es_dr p =? 0)%N with false in * by (symmetry; apply N.eqb_neq; exact Hd).
  destruct (domain_steps st (es_domains p) 28 28 (energy0 (es_banks p * es_ranks p * es_devices p)) (energy0 (es_banks p * es_ranks p * es_devices p)) (energy0 (es_banks p * es_ranks p * es_devices p)) e) as (em & er & G1 & G2 & G3).
  - auto.
  - lia.
  - lia.
  - split; [apply slots_nil|]. unfold scalars. cbn [energy0 en_shared en_pdna en_pdnp en_sref en_dsm en_refab]. pose proof (zero_near 28) as Z. repeat (split; [exact Z|]). exact Z.
  - exact H.
  - exists er. split; [exact G1|]. apply rtotal_near in G2.
    eapply (near_weaken u); [assumption|assumption|exact G2| | |reflexivity].
    + rewrite HL. unfold roundings. lia.
    + unfold size_of_energy. eapply Qle_trans; [exact G3|].
      assert (Z : en_total (energy0 (es_banks p * es_ranks p * es_devices p)) == 0); [|lra].
      rewrite total_is_sum. cbn [energy0 en_bank en_shared en_pdna en_pdnp en_sref en_dsm en_refab].
      assert (Z : qsum (fun i => qsum (comp_at i) counted) (repeat ei_zero (es_banks p * es_ranks p * es_devices p)) == 0); [|rewrite Z; ring].
      apply qsum_zero. intros x Hx. apply repeat_spec in Hx. subst x. apply qsum_zero. intros c _. rewrite comp_zero. reflexivity.
Qed.
End Core.
