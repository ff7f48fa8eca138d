(* The energy of the data sheet's measurement loops. *)
From Coq Require Import QArith NArith List Bool Arith Lia Lqa.
From Verif Require Import Base Command CoreModel Bits ListFacts StatsModel StatsSpec StatsProofs EnergyModel EnergySpec EnergyProofs EnergyMore.
Import ListNotations.
Local Open Scope Q_scope.

(* Rank-wide terms of one device. *)
Definition dev_rank (p : espec) (w : power) (r : cycle_stats) : Q :=
  let y := cs_cycles r in
  pw_v w * es_tCK p * (I_rho p w * qn (cy_act y) + pw_i3p w * qn (cy_pda y) + pw_i2p w * qn (cy_pdp y) + pw_i6 w * qn (cy_sref y)
    + match es_std p with LPDDR5 | LPDDR6 => pw_i6ds w * qn (cy_dsm y) | _ => 0 end).

Lemma comp_sum_total i : qsum (comp_at i) counted == ei_total i.
Proof. symmetry. apply ei_total_sum. Qed.

Lemma banks_total p st e : closed p st e ->
  qsum (fun i => qsum (comp_at i) counted) (en_bank e) ==
  qsum (fun w => qsum (fun j => ei_total (contrib p w st j)) (seq 0 (es_ranks p * es_devices p * es_banks p))) (es_domains p).
Proof.
  intros (L & H & _). rewrite bank_slots_sum, L. rewrite (qsum_swap (fun w j => ei_total (contrib p w st j))). apply qsum_ext. intros j Hj. apply in_seq in Hj.
  rewrite (nth_error_nth _ _ ei_zero (H j (proj2 Hj))).
  rewrite (qsum_ext _ (fun c => qsum (fun w => comp_at (contrib p w st j) c) (es_domains p))).
  - rewrite (qsum_swap (fun c w => comp_at (contrib p w st j) c)). apply qsum_ext. intros w _. apply comp_sum_total.
  - intros c _. rewrite accum_sum, comp_zero. ring.
Qed.
Lemma rank_blocks (f : nat -> nat -> Q) R D B : (0 < B)%nat -> 
  qsum (fun j => f (j / (D * B))%nat (j mod B)%nat) (seq 0 (R * D * B)) == qsum (fun r => qnat D * qsum (f r) (seq 0 B)) (seq 0 R).
Proof.
  intros HB. rewrite <- Nat.mul_assoc, qsum_blocks. apply qsum_ext. intros r _. rewrite qsum_blocks.
  rewrite (qsum_ext _ (fun _ => qsum (f r) (seq 0 B))).
  - rewrite qsum_const, seq_length. reflexivity.
  - intros d Hd. apply in_seq in Hd. apply qsum_ext. intros b Hb. apply in_seq in Hb.
    destruct (in_block r d b D B) as [A1 A2]; [lia|lia|]. rewrite Nat.mul_assoc, Nat.add_assoc, A1, A2. reflexivity.
Qed.
Theorem total_by_rank p st e : well_formed p -> closed p st e ->
  en_total e == qsum (fun w => qsum (fun r => qnat (es_devices p) *
    (qsum (fun b => ei_total (bank_energy p w (the_bank st (r * es_banks p + b)) (the_rank st r))) (seq 0 (es_banks p)) + dev_rank p w (the_rank st r)))
    (seq 0 (es_ranks p))) (es_domains p).
Proof.
  intros W K. rewrite total_is_sum, (banks_total p st e K). destruct K as (_ & _ & H1 & H2 & H3 & H4 & H5 & H6).
  rewrite H1, H2, H3, H4, H5, H6. unfold domain_sum, ranks_sum. rewrite Qplus_0_r, <- !qsum_plus. apply qsum_ext. intros w _. unfold contrib.
  rewrite (rank_blocks (fun r b => ei_total (bank_energy p w (the_bank st (r * es_banks p + b)) (the_rank st r)))) by (pose proof (wf_banks p W); lia).
  rewrite <- !qsum_plus. apply qsum_ext. intros r _. unfold d_shared, d_pdna, d_pdnp, d_sref, d_dsm, dev_rank, E_BG_act_shared, qD. fold (qnat (es_devices p)).
  cbv zeta. destruct (es_std p); ring.
Qed.

Lemma nth_concat_repeat {A} (l : list A) B d R : length l = B -> forall r b, (r < R)%nat -> (b < B)%nat -> nth (r * B + b) (concat (repeat l R)) d = nth b l d.
Proof.
  intros L. induction R as [|R IH]; intros r b Hr Hb; [lia|]. cbn [repeat concat]. destruct r as [|r].
  - cbn. apply app_nth1. lia.
  - rewrite app_nth2 by lia. replace (S r * B + b - length l)%nat with (r * B + b)%nat by lia. apply IH; lia.
Qed.
Lemma concat_repeat_length {A} (l : list A) R : length (concat (repeat l R)) = (R * length l)%nat.
Proof. induction R as [|R IH]; [reflexivity|]. cbn [repeat concat]. rewrite app_length, IH. lia. Qed.
Lemma loop_block_length p k (x : cycle_stats) : (k <= es_banks p)%nat -> length (repeat x k ++ repeat nothing (es_banks p - k)) = es_banks p.
Proof. intros H. rewrite app_length, !repeat_length. lia. Qed.
Lemma loop_covers p k x r : (k <= es_banks p)%nat -> covers p (loop_stats p k x r).
Proof.
  intros H. unfold covers. cbn [loop_stats ss_bank ss_rank]. rewrite concat_repeat_length, loop_block_length, repeat_length by exact H. lia.
Qed.
Lemma loop_rank p k x r i : (i < es_ranks p)%nat -> the_rank (loop_stats p k x r) i = r.
Proof. intros H. unfold the_rank. cbn [loop_stats ss_rank]. rewrite (nth_indep _ _ r) by now rewrite repeat_length. apply nth_repeat. Qed.

Lemma qsum_first k B (f g : Q) (h : nat -> Q) : (k <= B)%nat -> (forall b, (b < B)%nat -> h b == if (b <? k)%nat then f else g) ->
  qsum h (seq 0 B) == qnat k * f + (qnat B - qnat k) * g.
Proof.
  intros Hk H. replace B with (k + (B - k))%nat at 1 by lia. rewrite seq_app, qsum_app.
  rewrite (qsum_ext h (fun _ => f) (seq 0 k)), (qsum_ext h (fun _ => g) (seq (0 + k) (B - k))).
  - rewrite !qsum_const, !seq_length. assert (E : qnat (B - k) == qnat B - qnat k).
    { unfold qnat. rewrite Nat2Z.inj_sub by exact Hk. unfold Zminus. rewrite inject_Z_plus, inject_Z_opp. reflexivity. }
    rewrite E. reflexivity.
  - intros b Hb. apply in_seq in Hb. rewrite H by lia. destruct (Nat.ltb_spec b k); [lia|reflexivity].
  - intros b Hb. apply in_seq in Hb. rewrite H by lia. destruct (Nat.ltb_spec b k); [reflexivity|lia].
Qed.
Lemma loop_bank p k x r i b : (k <= es_banks p)%nat -> (i < es_ranks p)%nat -> (b < es_banks p)%nat ->
  the_bank (loop_stats p k x r) (i * es_banks p + b) = if (b <? k)%nat then x else nothing.
Proof.
  intros Hk Hi Hb. unfold the_bank. cbn [loop_stats ss_bank]. rewrite nth_concat_repeat by (try apply loop_block_length; assumption).
  destruct (Nat.ltb_spec b k) as [L|L].
  - rewrite app_nth1 by now rewrite repeat_length. rewrite (nth_indep _ _ x) by now rewrite repeat_length. apply nth_repeat.
  - rewrite app_nth2 by now rewrite repeat_length. rewrite repeat_length. rewrite (nth_indep _ _ nothing) by (rewrite repeat_length; lia). apply nth_repeat.
Qed.
(* Energy of one device of one rank in one domain. *)
Definition loop_device (p : espec) (w : power) (k : nat) (x r : cycle_stats) : Q :=
  qnat k * ei_total (bank_energy p w x r) + (qB p - qnat k) * ei_total (bank_energy p w nothing r) + dev_rank p w r.
Theorem loop_total p k x r : well_formed p -> (k <= es_banks p)%nat ->
  exists e, calc_energy p (loop_stats p k x r) = Exactly e /\
    en_total e == qnat (es_ranks p) * qnat (es_devices p) * qsum (fun w => loop_device p w k x r) (es_domains p).
Proof.
  intros W Hk. destruct (calc_ok p (loop_stats p k x r) (well_formed_usable p W) (loop_covers p k x r Hk)) as (e & E & K).
  exists e. split; [exact E|]. rewrite (total_by_rank p _ e W K), <- qsum_scale. apply qsum_ext. intros w _.
  rewrite (qsum_ext _ (fun _ => qnat (es_devices p) * loop_device p w k x r)).
  - rewrite qsum_const, seq_length. ring.
  - intros i Hi. apply in_seq in Hi. rewrite loop_rank by lia. unfold loop_device.
    rewrite (qsum_first k (es_banks p) (ei_total (bank_energy p w x r)) (ei_total (bank_energy p w nothing r))).
    + reflexivity.
    + exact Hk.
    + intros b Hb. rewrite loop_bank by lia. destruct (b <? k)%nat; reflexivity.
Qed.

Lemma qn_mul a b : qn (a * b) == qn a * qn b.
Proof. unfold qn. rewrite N2Z.inj_mul, inject_Z_mult. reflexivity. Qed.
Lemma exact_quotient a b : b <> 0%N -> (a mod b = 0)%N -> qn (a / b) == qn a / qn b.
Proof.
  intros Hb Hm. pose proof (N.div_mod a b Hb) as E. rewrite Hm, N.add_0_r in E. rewrite E at 2. rewrite qn_mul. field. now apply qn_nz.
Qed.
(* The counted energy in terms of the coefficients. *)
Lemma bank_total p w k r : ei_total (bank_energy p w k r) == qsum (fun c => coef p w c * qn (source c k r)) counted.
Proof. rewrite ei_total_sum. apply qsum_ext. intros c _. apply comp_linear. Qed.

Lemma dsm_zero (p : espec) (a : Q) : match es_std p with LPDDR5 | LPDDR6 => a * 0 | _ => 0 end == 0.
Proof. destruct (es_std p); ring. Qed.

Ltac open_loop p :=
  unfold loop_device; rewrite !bank_total; unfold counted; rewrite !qsum_cons, !qsum_nil; unfold dev_rank, nothing; unfold only;
  cbn [source part_at cs_get cs_counter cs_cycles cy_act cy_pre cy_pda cy_pdp cy_sref cy_dsm cs_zero cy_zero
    cs_act cs_pre cs_reads cs_writes cs_refAllBank cs_refPerBank cs_refPerTwoBanks cs_refDualBanks cs_refSameBank cs_readAuto cs_writeAuto];
  cbv zeta; change (qn 0) with 0; change (qnat 0) with 0; change (qnat 1) with 1; change (qnat 2) with 2; rewrite ?dsm_zero; rewrite ?Qmult_0_r, ?Qplus_0_l, ?Qplus_0_r, ?Qmult_0_l, ?qn_mul, ?qn_add.

Lemma loop_current p k x r I T : well_formed p -> measurement p k x r I T -> forall w, loop_device p w k x r == pw_v w * I w * T.
Proof.
  intros W M w. pose proof (qB_nz p W) as HB. pose proof (qn_nz _ (wf_tras p W)) as HR. pose proof (wf_tck p W) as HC.
  pose proof (bg_B p w W) as GB. pose proof (wf_dr p W) as HD. destruct M.
  - open_loop p. unfold coef, I_theta, t_ras, t_rp. field. tauto.
  - open_loop p. unfold coef. field. tauto.
  - destruct (es_std p) eqn:ES; open_loop p; unfold coef.
    + change (qnat (es_banks p)) with (qB p). assert (E : pw_i3n w == I_rho p w + qB p * (I_1 p w - I_rho p w)) by (unfold bg in GB; rewrite GB; unfold I_B; now rewrite ES). rewrite E. ring.
    + change (qnat (es_banks p)) with (qB p). assert (E : pw_i3n w == I_rho p w + qB p * (I_1 p w - I_rho p w)) by (unfold bg in GB; rewrite GB; unfold I_B; now rewrite ES). rewrite E. ring.
    + unfold I_1. rewrite ES. ring.
    + unfold I_1. rewrite ES. ring.
    + unfold I_1. rewrite ES. ring.
  - open_loop p. ring.
  - open_loop p. ring.
  - open_loop p. ring.
  - open_loop p. destruct H as [-> | ->]; ring.
  - assert (BI : I_rho p w + qnat (banks_in_burst p) * (I_1 p w - I_rho p w) == i_burst p w).
    { unfold banks_in_burst, i_burst. unfold bg in GB. destruct (es_std p); [exact GB|exact GB|exact (bg_1 p w)| |exact (bg_2 p w)].
      destruct (es_mbg p); [exact (bg_2 p w)|exact (bg_1 p w)]. }
    assert (BT : (match es_std p with DDR4 | DDR5 => qn (es_bl p) / qn (es_dr p) | _ => qn (es_bl p / es_dr p) end) * t_burst p == burst_time p).
    { unfold t_burst, burst_time. destruct (es_std p); try reflexivity; rewrite exact_quotient by assumption; reflexivity. }
    assert (KR : coef p w CRd == pw_v w * (pw_i4r w - i_burst p w) * burst_time p) by (rewrite <- BT; unfold coef; ring).
    open_loop p. rewrite KR, <- BI. unfold coef.
    transitivity (pw_v w * (pw_i4r w - (I_rho p w + qnat (banks_in_burst p) * (I_1 p w - I_rho p w))) * (qnat (banks_in_burst p) * qn m * burst_time p)
      + pw_v w * (I_rho p w + qnat (banks_in_burst p) * (I_1 p w - I_rho p w)) * (qn n * es_tCK p)); [|rewrite <- H0]; ring.
  - assert (BI : I_rho p w + qnat (banks_in_burst p) * (I_1 p w - I_rho p w) == i_burst p w).
    { unfold banks_in_burst, i_burst. unfold bg in GB. destruct (es_std p); [exact GB|exact GB|exact (bg_1 p w)| |exact (bg_2 p w)].
      destruct (es_mbg p); [exact (bg_2 p w)|exact (bg_1 p w)]. }
    assert (BT : qn (es_bl p / es_dr p) * t_burst p == burst_time p).
    { unfold t_burst, burst_time. rewrite exact_quotient by assumption. destruct (es_std p); reflexivity. }
    assert (KR : coef p w CWr == pw_v w * (pw_i4w w - i_burst p w) * burst_time p) by (rewrite <- BT; unfold coef; ring).
    open_loop p. rewrite KR, <- BI. unfold coef.
    transitivity (pw_v w * (pw_i4w w - (I_rho p w + qnat (banks_in_burst p) * (I_1 p w - I_rho p w))) * (qnat (banks_in_burst p) * qn m * burst_time p)
      + pw_v w * (I_rho p w + qnat (banks_in_burst p) * (I_1 p w - I_rho p w)) * (qn n * es_tCK p)); [|rewrite <- H0]; ring.
  - open_loop p. change (qnat (es_banks p)) with (qB p). unfold coef. rewrite <- GB. unfold bg, t_rfc. field. exact HB.
  - assert (HG : ~ qBG p == 0) by (apply inject_nat_nz; pose proof (wf_std p W) as X; rewrite H in X; exact X).
    open_loop p. change (qnat (es_groups p)) with (qBG p). unfold coef. rewrite H. unfold I_BG, t_rfcs. field. exact HG.
  - assert (HT : ~ qn (es_tRFCs p) == 0) by (apply qn_nz; pose proof (wf_std p W) as X; destruct H as [H|H]; rewrite H in X; apply X).
    open_loop p. unfold coef. assert (E : forall a b : Q, match es_std p with LPDDR4 | LPDDR5 => a | _ => b end = a) by (destruct H as [-> | ->]; reflexivity).
    rewrite E. unfold IDD5_B, t_rfcs, t_refi. rewrite H0, qn_mul, qn_add. change (qn 8) with 8. field. tauto.
  - assert (HT : ~ qn (es_tRFCs p) == 0) by (apply qn_nz; pose proof (wf_std p W) as X; rewrite H in X; apply X).
    open_loop p. unfold coef. rewrite H. unfold I_2, IDD5_B, t_rfcs, t_refi. rewrite H0, qn_mul, qn_add. change (qn 8) with 8. field. tauto.
  - assert (HT : ~ qn (es_tRFCs p) == 0) by (apply qn_nz; pose proof (wf_std p W) as X; rewrite H in X; apply X).
    open_loop p. unfold coef. rewrite H. unfold I_2, IDD5_B, t_rfcs, t_refi. rewrite H0, qn_mul, qn_add. change (qn 8) with 8. field. tauto.
Qed.
Theorem measurement_energy p k x r I T : well_formed p -> measurement p k x r I T -> (k <= es_banks p)%nat ->
  exists e, calc_energy p (loop_stats p k x r) = Exactly e /\
    en_total e == qnat (es_ranks p) * qnat (es_devices p) * qsum (fun w => pw_v w * I w * T) (es_domains p).
Proof.
  intros W M Hk. destruct (loop_total p k x r W Hk) as (e & E & H). exists e. split; [exact E|]. rewrite H.
  rewrite (qsum_ext (fun w => loop_device p w k x r) (fun w => pw_v w * I w * T)); [reflexivity|].
  intros w _. now apply loop_current.
Qed.
