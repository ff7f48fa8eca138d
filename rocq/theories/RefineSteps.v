(* Every step of the model of a rank is a step of the reference machine. *)
From Coq Require Import ZArith NArith List Bool Lia ZifyBool ZifyNat ZifyN Sorting.Sorted Permutation.
From Verif Require Import Base Command CoreModel ListFacts QueueProofs CoreBasics HistorySpec CoreHistory CoreBounds DeviceSpec RefineBase.
Import ListNotations.
Local Open Scope N_scope.

(* ---- the active interval of the rank follows its banks ---- *)

Definition ract (now : N) (r : rank) (a : N) : Prop :=
  ivrel now (rk_act r) (existsb bk_active (rk_banks r)) a /\ rk_endRefresh r <= now.

Lemma is_active_eq now r a : ract now r a -> rank_is_active now r = existsb bk_active (rk_banks r).
Proof.
  intros [_ H]. unfold rank_is_active. destruct (N.ltb_spec now (rk_endRefresh r)); [lia|].
  apply orb_false_r.
Qed.

Lemma existsb_upd_true {A} (P : A -> bool) b f l :
  (b < length l)%nat -> (forall x, P (f x) = true) -> existsb P (upd b f l) = true.
Proof.
  intros Hb Hf. destruct (nth_error_lt l b Hb) as [x Hx].
  apply existsb_nth. exists b, (f x). rewrite nth_error_upd_eq, Hx. auto.
Qed.

Lemma existsb_upd_same {A} (P : A -> bool) b f l :
  (forall x, P (f x) = P x) -> existsb P (upd b f l) = existsb P l.
Proof.
  intros H. revert b; induction l as [|x l IH]; intros [|b]; cbn; auto; rewrite ?H, ?IH; auto.
Qed.

Lemma existsb_upd_false {A} (P : A -> bool) b f l :
  (forall x, P (f x) = true -> P x = true) -> existsb P (upd b f l) = true -> existsb P l = true.
Proof.
  intros H. revert b; induction l as [|x l IH]; intros [|b]; cbn; auto;
    rewrite !orb_true_iff; intros [H1|H1]; auto. right; eauto.
Qed.

(* the common end of h_pre and x_refEnd *)
Lemma ract_drop now b f r a :
  now < two64 -> (forall x, bk_active (f x) = true -> bk_active x = true) ->
  ract now r a -> ract now (close_if_idle now (rk_upd_bank b f r)) a.
Proof.
  intros Hn Hf [H1 H2]. unfold close_if_idle, rank_is_active. cbn.
  destruct (N.ltb_spec now (rk_endRefresh r)); [lia|]. rewrite orb_false_r.
  destruct (existsb bk_active (upd b f (rk_banks r))) eqn:E; split; auto; cbn; rewrite E.
  - rewrite (existsb_upd_false _ b f _ Hf E) in H1. exact H1.
  - eapply ivrel_close; eauto.
Qed.

Lemma ract_h_pre now b r a : now < two64 -> ract now r a -> ract now (h_pre now b r) a.
Proof.
  intros Hn H. unfold h_pre. destruct (nth_error (rk_banks r) b); auto.
  destruct (bk_active b0); auto. apply ract_drop; auto. discriminate.
Qed.

Lemma ract_x_refEnd now b r a : now < two64 -> ract now r a -> ract now (x_refEnd now b r) a.
Proof. intros Hn H. apply ract_drop; auto. discriminate. Qed.

Lemma ract_h_act p now b r a : (b < nbk r)%nat -> ract now r a -> ract now (h_act p b now r) a.
Proof.
  intros Hb H. pose proof H as [H1 H2]. unfold nbk in Hb. unfold h_act.
  assert (forall s, ms_std p = s -> s <> DDR4 ->
    ract now (rk_upd_bank b (bk_set_active true)
       (start_if_idle now (rk_upd_bank b (fun k => bk_set_act (iv_start_at now (bk_act k)) (bk_bump K_act k)) r))) a) as HO.
  { intros _ _ _. unfold start_if_idle, rank_is_active. cbn.
    destruct (N.ltb_spec now (rk_endRefresh r)); [lia|]. rewrite orb_false_r.
    rewrite existsb_upd_same by reflexivity.
    destruct (existsb bk_active (rk_banks r)) eqn:E; split; auto; cbn;
      rewrite existsb_upd_true by (auto; rewrite ?length_upd; auto); auto.
    apply ivrel_start; auto. }
  destruct (ms_std p) eqn:Es; try (eapply HO; [reflexivity|discriminate]).
  split; auto. cbn. rewrite existsb_upd_true by auto. eapply ivrel_start_if_closed; eauto.
Qed.

Lemma ract_refreshOnBank k tm now b r a :
  (b < nbk r)%nat -> ract now r a -> ract now (fst (h_refreshOnBank k tm now b r)) a.
Proof.
  intros Hb H. pose proof H as [H1 H2]. unfold nbk in Hb. unfold h_refreshOnBank; cbn [fst].
  unfold start_if_idle, rank_is_active. cbn.
  destruct (N.ltb_spec now (rk_endRefresh r)); [lia|]. rewrite orb_false_r.
  rewrite existsb_upd_same by reflexivity.
  destruct (existsb bk_active (rk_banks r)) eqn:E; split; auto; cbn;
    rewrite existsb_upd_true by (auto; rewrite ?length_upd; auto); auto.
  apply ivrel_start; auto.
Qed.

Lemma ract_fold now (h : nat -> rank -> rank) ids r a :
  (forall b r, (b < nbk r)%nat -> ract now r a -> ract now (h b r) a) ->
  (forall b r, nbk (h b r) = nbk r) ->
  Forall (fun b => (b < nbk r)%nat) ids ->
  ract now r a -> ract now (fold_left (fun r b => h b r) ids r) a.
Proof.
  intros H Hn F. revert r F; induction ids as [|b ids IH]; intros r F R; cbn; auto.
  inversion F; subst. apply IH; auto. rewrite Hn; auto.
Qed.

Lemma ract_refresh_banks k tm now ids r a :
  Forall (fun b => (b < nbk r)%nat) ids -> ract now r a -> ract now (fst (refresh_banks k tm now ids r)) a.
Proof.
  intros F R. rewrite refresh_banks_eq; cbn [fst].
  apply (ract_fold now (fun b r => fst (h_refreshOnBank k tm now b r))); auto.
  - intros; apply ract_refreshOnBank; auto.
  - intros; apply nbk_h_refreshOnBank.
Qed.

Lemma ract_pre_fold now ids r a : now < two64 -> ract now r a ->
  ract now (fold_left (fun r b => h_pre now b r) ids r) a.
Proof.
  intros Hn; revert r; induction ids as [|b ids IH]; intros r R; cbn; auto.
  apply IH, ract_h_pre; auto.
Qed.

Lemma ddr4_fold_act now tend ids r :
  rk_act (fold_left (fun r b => ddr4_ref_bank now tend b r) ids r) = rk_act r.
Proof. revert r; induction ids as [|b ids IH]; intros r; cbn; auto. rewrite IH; reflexivity. Qed.

(* After an all-bank refresh the rank is active. *)
Lemma refAll_act p now r a : (0 < nbk r)%nat -> ract now r a ->
  ivrel now (rk_act (fst (h_refAll p now r))) true a.
Proof.
  intros Hb R. destruct (ms_std p) eqn:E.
  1: rewrite h_refAll_ddr4 by auto; cbn [fst]; rewrite ddr4_fold_act; cbn;
     eapply ivrel_start_if_closed; apply R.
  all: rewrite h_refAll_other by congruence; cbn [fst]; cbn;
    destruct (ract_refresh_banks K_refAllBank (ms_tRFC p) now (seq 0 (nbk r)) r a) as [H1 _]; auto;
    try (apply Forall_forall; intros x Hx; apply in_seq in Hx; lia);
    pose proof (bnk_refresh_banks K_refAllBank (ms_tRFC p) now (seq 0 (nbk r)) 0 r) as B;
    rewrite times_in_seq in B by auto; cbn [Nat.iter nat_rect] in B;
    destruct (bnk_some 0 r Hb) as [k Hk]; rewrite Hk in B; cbn in B;
    eapply ivrel_ext; [exact H1| |reflexivity];
    apply existsb_nth; eexists 0%nat, _; split; [exact B|reflexivity].
Qed.

(* ---- effects of the operations on one bank ---- *)

Lemma bump_same k c : k <> K_act -> k <> K_pre -> cs_act (cs_bump k c) = cs_act c /\ cs_pre (cs_bump k c) = cs_pre c.
Proof. destruct c, k; cbn; intros; try congruence; auto. Qed.
Lemma bump_act c : cs_act (cs_bump K_act c) = u64_inc (cs_act c) /\ cs_pre (cs_bump K_act c) = cs_pre c.
Proof. destruct c; cbn; auto. Qed.
Lemma bump_pre c : cs_act (cs_bump K_pre c) = cs_act c /\ cs_pre (cs_bump K_pre c) = u64_inc (cs_pre c).
Proof. destruct c; cbn; auto. Qed.
Lemma inc_small x n : x <= n -> n + 1 < two64 -> u64_inc x = x + 1.
Proof. intros. unfold u64_inc. apply u64_add_small. lia. Qed.

Lemma brel_mono now n n' ps pd k sb a : n <= n' -> brel now n ps pd k sb a -> brel now n' ps pd k sb a.
Proof. intros H [Ba Bi Be Bs Bo Bp Br Bn]; constructor; auto. lia. Qed.

Lemma brel_ps now n ps ps' k sb a : brel now n ps false k sb a -> brel now n ps' false k sb a.
Proof. intros [Ba Bi Be Bs Bo Bp Br Bn]; constructor; auto. destruct (sb_state sb); auto. discriminate. Qed.

Lemma brel_tick now n ps pd k sb a : now + 1 < two64 -> brel now n ps pd k sb a ->
  brel (now + 1) n ps pd k sb (a + b2N (busy sb && negb pd)).
Proof.
  intros H [Ba Bi Be Bs Bo Bp Br Bn]; constructor; auto.
  - apply ivrel_tick; auto.
  - destruct (sb_since sb); auto. destruct Bs as [? [? ?]]. repeat split; auto; lia.
  - destruct (sb_pre sb); auto. destruct Bp as [? [? ?]]. repeat split; auto; lia.
  - destruct (sb_state sb); auto; lia.
Qed.

Lemma brel_act now n ps k sb a : n + 1 < two64 -> is_closed sb = true ->
  brel now n ps false k sb a -> brel now (n + 1) ps false (b_act now k) (open_bank now sb) a.
Proof.
  intros Hn Hc [Ba Bi Be Bs Bo Bp Br Bn]. unfold is_closed in Hc. destruct (sb_state sb) eqn:E; try discriminate.
  unfold busy in *. rewrite E in *. cbn [andb negb] in *.
  destruct Bn as [N1 N2]. destruct (bump_act (bk_counter k)) as [B1 B2].
  rewrite (inc_small _ n) in B1 by auto.
  constructor; unfold b_act, busy; cbn [open_bank sb_state sb_since sb_pre sb_off bk_active bk_act bk_set_act bk_set_active bk_bump
     bk_set_counter bk_counter bk_latestPre bk_refreshEnd andb negb iv_start_at iv_start iv_end]; rewrite ?B1, ?B2; auto.
  - eapply ivrel_start; eauto.
  - discriminate.
  - repeat split; lia.
  - discriminate.
  - lia.
Qed.

(* Closing an open row, by command or by auto-precharge. *)
Lemma brel_pre now n n' ps k sb a sb' : now < two64 ->
  cs_pre (bk_counter k) + 1 <= n' -> n' < two64 -> n <= n' ->
  (sb_state sb = Open \/ exists c, sb_state sb = Closing c) ->
  sb' = mkSb Closed (sb_since sb) (Some now) (Some now) ->
  brel now n ps false k sb a -> brel now n' ps false (b_pre now k) sb' a.
Proof.
  intros Ht Hn Hn' Hnn Hs -> [Ba Bi Be Bs Bo Bp Br Bn]. 
  assert (busy sb = true) as Hb by (unfold busy; destruct Hs as [->|[c ->]]; reflexivity).
  assert (bk_refreshEnd k <= now) as Hr by (destruct Hs as [E|[c E]]; rewrite E in *; auto).
  assert (sb_since sb <> None) as Ho by (destruct Hs as [E|[c E]]; rewrite E in *; auto).
  assert (cs_act (bk_counter k) = cs_pre (bk_counter k) + 1) as Hap by (destruct Bn as [_ [_ ->]]; destruct Hs as [->|[c ->]]; reflexivity).
  rewrite Hb in *. cbn [andb negb] in *.
  destruct Bn as [N1 N2]. destruct (bump_pre (bk_counter k)) as [B1 B2].
  unfold u64_inc in B2; rewrite u64_add_small in B2 by lia.
  unfold b_pre. rewrite Ba.
  constructor; unfold busy; cbn [sb_state sb_since sb_pre sb_off bk_active bk_act bk_set_act bk_set_active bk_bump
     bk_set_counter bk_set_latestPre bk_counter bk_latestPre bk_refreshEnd andb negb]; rewrite ?B1, ?B2; auto.
  - eapply ivrel_close; eauto.
  - split; [|discriminate]. unfold iv_close. destruct Bi as [_ [-> _]]. reflexivity.
  - destruct (sb_since sb); auto. unfold iv_close. destruct (iv_is_open (bk_act k)); cbn; auto.
  - repeat split; lia.
  - lia.
Qed.

Lemma brel_refEnd now n ps k sb a : now < two64 -> sb_state sb = Refreshing now ->
  brel now n ps false k sb a ->
  brel now n ps false (b_refEnd now k) (mkSb Closed (sb_since sb) (sb_pre sb) (Some now)) a.
Proof.
  intros Ht E [Ba Bi Be Bs Bo Bp Br Bn]. unfold busy in *; rewrite E in *. cbn [andb negb] in *.
  constructor; unfold b_refEnd, busy; cbn [sb_state sb_since sb_pre sb_off bk_active bk_act bk_set_act bk_set_active
     bk_counter bk_latestPre bk_refreshEnd andb negb]; auto.
  - eapply ivrel_close; eauto.
  - split; [|discriminate]. unfold iv_close. destruct Bi as [_ [-> _]]. reflexivity.
  - destruct (sb_since sb); auto. unfold iv_close. destruct (iv_is_open (bk_act k)); cbn; auto.
  - lia.
Qed.

Lemma brel_refresh kd now n ps k sb a e : kd <> K_act -> kd <> K_pre -> is_closed sb = true ->
  brel now n ps false k sb a ->
  brel now n ps false (b_refresh kd now e k) (refresh_bank now e sb) a.
Proof.
  intros K1 K2 Hc [Ba Bi Be Bs Bo Bp Br Bn]. unfold is_closed in Hc. destruct (sb_state sb) eqn:E; try discriminate.
  unfold busy in *; rewrite E in *. cbn [andb negb] in *.
  destruct (bump_same kd (bk_counter k) K1 K2) as [B1 B2].
  constructor; unfold b_refresh, refresh_bank, busy; cbn [sb_state sb_since sb_pre sb_off bk_active bk_act bk_set_act bk_set_active
     bk_set_refreshEnd bk_bump bk_set_counter bk_counter bk_latestPre bk_refreshEnd andb negb]; rewrite ?B1, ?B2; auto.
  - eapply ivrel_start_if_closed; eauto.
  - destruct (sb_since sb); auto. destruct Bs as [? [? ?]]. repeat split; auto; try lia.
    unfold iv_start_if_closed. destruct Bi as [_ [-> _]]. reflexivity.
Qed.

Lemma brel_bump kd now n ps pd k sb a : kd <> K_act -> kd <> K_pre ->
  brel now n ps pd k sb a -> brel now n ps pd (bk_bump kd k) sb a.
Proof.
  intros K1 K2 [Ba Bi Be Bs Bo Bp Br Bn]. destruct (bump_same kd (bk_counter k) K1 K2) as [B1 B2].
  constructor; cbn [bk_active bk_act bk_bump bk_set_counter bk_counter bk_latestPre bk_refreshEnd];
    rewrite ?B1, ?B2; auto.
Qed.

Lemma brel_autoclose p now n ps k sb a off : is_open sb = true ->
  brel now n ps false k sb a -> brel now (n + 1) ps false k (autoclose_bank p now off sb) a.
Proof.
  intros Ho [Ba Bi Be Bs Bo Bp Br Bn]. unfold is_open in Ho. destruct (sb_state sb) eqn:E; try discriminate.
  unfold busy in *; rewrite E in *.
  constructor; unfold autoclose_bank, busy; cbn [sb_state sb_since sb_pre sb_off]; auto. lia.
Qed.

(* ---- events ---- *)

Lemma bank_evs_time now q d b sb : qrel now q d -> nth_error (dv_banks d) b = Some sb ->
  forall e, In e (sb_ev b sb) -> In e q.
Proof.
  intros [[qb [-> Hp]] _ _] Hb e He. apply in_or_app; left.
  eapply Permutation_in; [apply Permutation_sym; exact Hp|].
  assert (forall i bs j, nth_error bs j = Some sb -> In e (sb_ev (i + j) sb) -> In e (bank_evs i bs)) as G.
  { intros i bs; revert i; induction bs as [|x bs IH]; intros i [|j] Hj Hin; cbn in *; try discriminate.
    - injection Hj as ->. rewrite Nat.add_0_r in Hin. apply in_or_app; auto.
    - apply in_or_app; right. apply (IH (S i) j); auto. rewrite Nat.add_succ_r in Hin. exact Hin. }
  apply (G 0%nat _ b); auto.
Qed.

(* The fields of a rank other than its banks and its active interval. *)
Definition same_fields (r r' : rank) : Prop :=
  rk_memState r' = rk_memState r /\ rk_pda r' = rk_pda r /\ rk_pdp r' = rk_pdp r /\
  rk_sref r' = rk_sref r /\ rk_dsm r' = rk_dsm r.

Lemma sf_refl r : same_fields r r.
Proof. repeat split. Qed.
Lemma sf_trans r1 r2 r3 : same_fields r1 r2 -> same_fields r2 r3 -> same_fields r1 r3.
Proof. unfold same_fields; intuition congruence. Qed.
Lemma sf_close_if_idle t r : same_fields r (close_if_idle t r).
Proof. unfold close_if_idle. destruct (rank_is_active t r); repeat split. Qed.
Lemma sf_start_if_idle t r : same_fields r (start_if_idle t r).
Proof. unfold start_if_idle. destruct (rank_is_active t r); repeat split. Qed.
Lemma sf_h_pre t b r : same_fields r (h_pre t b r).
Proof.
  unfold h_pre. destruct (nth_error (rk_banks r) b) as [k|]; [|apply sf_refl].
  destruct (bk_active k); [|apply sf_refl].
  eapply sf_trans; [|apply sf_close_if_idle]. repeat split.
Qed.
Lemma sf_x_refEnd t b r : same_fields r (x_refEnd t b r).
Proof. unfold x_refEnd. eapply sf_trans; [|apply sf_close_if_idle]. repeat split. Qed.
Lemma sf_h_act p b t r : same_fields r (h_act p b t r).
Proof.
  unfold h_act, start_if_idle. destruct (ms_std p); cbv zeta;
    try (match goal with |- context [if ?x then _ else _] => destruct x end); repeat split.
Qed.
Lemma sf_refreshOnBank k tm t b r : same_fields r (fst (h_refreshOnBank k tm t b r)).
Proof.
  unfold h_refreshOnBank, start_if_idle; cbn [fst].
  match goal with |- context [if ?x then _ else _] => destruct x end; repeat split.
Qed.
Lemma sf_fold {A} (h : A -> rank -> rank) l r :
  (forall a r, same_fields r (h a r)) -> same_fields r (fold_left (fun r a => h a r) l r).
Proof.
  intros H; revert r; induction l as [|a l IH]; intros r; cbn; [apply sf_refl|].
  eapply sf_trans; [apply H|apply IH].
Qed.
Lemma sf_refresh_banks k tm t bs r : same_fields r (fst (refresh_banks k tm t bs r)).
Proof.
  rewrite refresh_banks_eq; cbn [fst].
  apply (sf_fold (fun b r => fst (h_refreshOnBank k tm t b r))). intros; apply sf_refreshOnBank.
Qed.
Lemma sf_h_refAll p t r : same_fields r (fst (h_refAll p t r)).
Proof.
  destruct (ms_std p) eqn:E;
    [rewrite h_refAll_ddr4 by auto|rewrite h_refAll_other by congruence..]; cbn [fst].
  2-5: eapply sf_trans; [apply sf_refresh_banks|]; repeat split.
  eapply sf_trans; [|apply (sf_fold (fun b r => ddr4_ref_bank t (u64_add t (ms_tRFC p)) b r)); repeat split].
  repeat split.
Qed.

(* Rebuilding the relation when the rank stays up. *)
Lemma Rel_up p now n n' rk rk' d d' K :
  Rel p now n rk d K -> same_fields rk rk' ->
  length (rk_banks rk') = ms_banks p -> length (dv_banks d') = ms_banks p ->
  dv_mode d = Up -> dv_mode d' = Up ->
  ivrel now (rk_act rk') (existsb bk_active (rk_banks rk')) (n_act K) ->
  (forall b k sb, bnk b rk' = Some k -> nth_error (dv_banks d') b = Some sb ->
     brel now n' (iv_get_start (rk_pda rk)) false k sb (n_bank K b)) ->
  (now < rk_endRefresh rk' ->
     forall b sb, nth_error (dv_banks d') b = Some sb -> sb_state sb = Refreshing (rk_endRefresh rk')) ->
  dev_ok (iv_get_start (rk_pda rk)) d' ->
  Rel p now n' rk' d' K.
Proof.
  intros R [S1 [S2 [S3 [S4 S5]]]] L1 L2 M1 M2 HA HB HE HO.
  destruct R as [rl_len0 rl_bank0 rl_mem0 rl_act0 rl_pda0 rl_pdp0 rl_sref0 rl_dsm0 rl_end0 rl_ok0 rl_bsum0 rl_sum0]. unfold mode_is in *. rewrite M1 in *.
  constructor; unfold mode_is; rewrite ?S2, ?M2; auto.
  - rewrite S1; auto.
  - unfold rank_acts, mode_is. rewrite M2. cbn [negb smode_beq]. rewrite andb_true_r.
    rewrite <- (existsb_ext_nth bk_active busy (rk_banks rk') (dv_banks d')); auto; [lia|].
    intros i x y Hx Hy. eapply br_active. eapply HB; eauto.
  - rewrite S3; auto.
  - rewrite S4; auto.
  - rewrite S5; auto.
Qed.

Lemma rel_ract p now n rk d K : Rel p now n rk d K -> dv_mode d = Up ->
  rk_endRefresh rk <= now -> ract now rk (n_act K).
Proof.
  intros R M E. split; auto. eapply ivrel_ext; [apply (rl_act _ _ _ _ _ _ R)| |reflexivity].
  rewrite (rel_active _ _ _ _ _ _ R). unfold rank_acts, mode_is. rewrite M. apply andb_true_r.
Qed.

(* Something pending on a bank: the rank is up. *)
Lemma pending_up p now n rk d K b sb : Rel p now n rk d K ->
  nth_error (dv_banks d) b = Some sb -> is_stable sb = false -> dv_mode d = Up.
Proof.
  intros R Hb Hs. pose proof (rl_ok _ _ _ _ _ _ R) as O. unfold dev_ok in O.
  unfold is_stable in Hs. apply orb_false_iff in Hs as [H1 H2].
  destruct (dv_mode d); auto; exfalso;
    destruct (dv_pend d) as [[x []]|]; try tauto;
    repeat match goal with H : _ /\ _ |- _ => destruct H end;
    match goal with H : forallb _ _ = true |- _ => rewrite forallb_nth in H; specialize (H b sb Hb) end;
    cbn in *; rewrite ?H1, ?H2 in *; cbn in *; congruence.
Qed.

Lemma settle_open t sb : is_open (settle_bank t sb) = is_open sb.
Proof.
  unfold settle_bank, is_open. destruct (sb_state sb) eqn:E; cbn; rewrite ?E; auto.
  - destruct (at_ <=? t); cbn; rewrite ?E; auto.
  - destruct (until <=? t); cbn; rewrite ?E; auto.
Qed.
Lemma settle_closed_before t x sb : closed_before x (settle_bank t sb) = closed_before x sb.
Proof.
  unfold settle_bank, closed_before. destruct (sb_state sb) eqn:E; cbn; rewrite ?E; auto.
  - destruct (at_ <=? t) eqn:H; cbn; rewrite ?E; auto.
  - destruct (until <=? t) eqn:H; cbn; rewrite ?E; auto.
Qed.
Lemma settle_closed_by t x sb : closed_by x sb = true -> closed_by x (settle_bank t sb) = true.
Proof.
  unfold settle_bank, closed_by. destruct (sb_state sb) eqn:E; cbn; rewrite ?E; auto.
  - destruct (at_ <=? t) eqn:H; cbn; rewrite ?E; auto.
  - destruct (until <=? t) eqn:H; cbn; rewrite ?E; auto.
Qed.

Lemma existsb_upd_eq {A} (P : A -> bool) b f l :
  (forall x, P (f x) = P x) -> existsb P (upd b f l) = existsb P l.
Proof. apply existsb_upd_same. Qed.
Lemma forallb_upd_true {A} (P : A -> bool) b f l :
  (forall x, P x = true -> P (f x) = true) -> forallb P l = true -> forallb P (upd b f l) = true.
Proof.
  intros H. revert b; induction l as [|x l IH]; intros [|b]; cbn; auto;
    rewrite !andb_true_iff; intros [H1 H2]; auto.
Qed.

Lemma bank_event p now n rk d K b sb x :
  now < two64 -> n < two64 -> Rel p now n rk d K ->
  nth_error (dv_banks d) b = Some sb -> sb_ev b sb = [(now, x)] ->
  Rel p now n (exec_ric p now x rk) (with_banks (upd b (settle_bank now) (dv_banks d)) d) K.
Proof.
  intros Ht Hn R Hb He.
  assert (is_stable sb = false) as Hs.
  { unfold sb_ev in He. unfold is_stable, is_closed, is_open. destruct (sb_state sb); try discriminate; auto. }
  pose proof (pending_up _ _ _ _ _ _ _ _ R Hb Hs) as M.
  destruct (rl_len _ _ _ _ _ _ R) as [L1 L2].
  assert (rk_endRefresh rk <= now) as HE.
  { destruct (N.le_gt_cases (rk_endRefresh rk) now) as [|G]; auto. exfalso.
    pose proof (rl_end _ _ _ _ _ _ R G b sb Hb) as E. unfold sb_ev in He. rewrite E in He.
    injection He as He _. lia. }
  pose proof (rel_ract _ _ _ _ _ _ R M HE) as RA.
  assert (same_fields rk (exec_ric p now x rk) /\ ract now (exec_ric p now x rk) (n_act K) /\
          (forall b' k sb', bnk b' (exec_ric p now x rk) = Some k ->
             nth_error (upd b (settle_bank now) (dv_banks d)) b' = Some sb' ->
             brel now n (iv_get_start (rk_pda rk)) false k sb' (n_bank K b'))) as [SF [RA' HB]].
  { assert (forall f, (exists k0, bnk b rk = Some k0 /\
                brel now n (iv_get_start (rk_pda rk)) false (f k0) (settle_bank now sb) (n_bank K b)) ->
              forall b' k sb', (if Nat.eqb b b' then option_map f (bnk b' rk) else bnk b' rk) = Some k ->
              nth_error (upd b (settle_bank now) (dv_banks d)) b' = Some sb' ->
              brel now n (iv_get_start (rk_pda rk)) false k sb' (n_bank K b')) as G.
    { intros f [k0 [Hk0 HB]] b' k sb' H1 H2. rewrite nth_error_upd in H2.
      destruct (Nat.eqb_spec b b') as [->|].
      - rewrite Hk0 in H1; rewrite Hb in H2. injection H1 as <-. injection H2 as <-. exact HB.
      - pose proof (rl_bank _ _ _ _ _ _ R b' k sb' H1 H2) as HB'.
        unfold mode_is in HB'. rewrite M in HB'. exact HB'. }
    destruct (rel_bank_ex p now n rk d K b R ltac:(apply nth_error_some_lt in Hb; lia)) as [k0 [sb0 [Hk0 [Hs0 B]]]].
    rewrite Hb in Hs0; injection Hs0 as <-. unfold mode_is in B; rewrite M in B. cbn [smode_beq] in B.
    unfold sb_ev in He. unfold settle_bank in G.
    destruct (sb_state sb) as [| |c|e] eqn:Es; try discriminate; injection He as -> <-; cbn [exec_ric].
    - split; [apply sf_h_pre|split; [apply ract_h_pre; auto|]].
      intros b' k sb'. rewrite bnk_h_pre. apply G. exists k0. split; auto.
      rewrite N.leb_refl. eapply (brel_pre now n n); eauto; try lia.
      pose proof (br_n _ _ _ _ _ _ _ B) as [_ B2]. rewrite Es in B2. lia.
    - split; [apply sf_x_refEnd|split; [apply ract_x_refEnd; auto|]].
      intros b' k sb'. rewrite bnk_x_refEnd. apply G. exists k0. split; auto.
      rewrite N.leb_refl. eapply brel_refEnd; eauto. }
  destruct RA' as [RA1 RA2].
  eapply Rel_up; eauto; cbn [with_banks dv_banks dv_mode]; auto.
  - pose proof (nbk_exec_ric p now x rk) as Z. unfold nbk in Z. lia.
  - rewrite length_upd; auto.
  - intros G. exfalso. lia.
  - pose proof (rl_ok _ _ _ _ _ _ R) as O. unfold dev_ok in *. cbn [with_banks dv_banks dv_mode dv_pend].
    rewrite M in *. destruct (dv_pend d) as [[y []]|]; try tauto.
    + destruct O as [O1 O2]. split.
      * rewrite existsb_upd_eq; auto. intros; apply settle_open.
      * apply forallb_upd_true; auto. intros z. rewrite settle_open, settle_closed_before; auto.
    + apply forallb_upd_true; auto. intros z; apply settle_closed_by.
    + apply forallb_upd_true; auto. intros z; apply settle_closed_by.
Qed.

(* ---- the mode changes ---- *)

Lemma iv_close_closed t i : iv_is_open i = false -> iv_close t i = i.
Proof. intros H. unfold iv_close. rewrite H. reflexivity. Qed.

Lemma bk_eta k : bk_set_act (bk_act k) k = k.
Proof. destruct k; reflexivity. Qed.

Lemma closed_brel_closed now n ps pd k sb a : brel now n ps pd k sb a -> is_closed sb = true ->
  iv_is_open (bk_act k) = false /\ bk_active k = false.
Proof.
  intros [Ba Bi _ _ _ _ _ _] H. unfold is_closed in H. unfold busy in *.
  destruct (sb_state sb); try discriminate. destruct Bi as [_ [Bi _]]. auto.
Qed.

Lemma none_busy bs : forallb is_closed bs = true -> existsb busy bs = false.
Proof.
  induction bs as [|b bs IH]; cbn; auto. rewrite andb_true_iff. intros [H1 H2].
  unfold is_closed in H1. unfold busy at 1. destruct (sb_state b); try discriminate. cbn; auto.
Qed.

Lemma some_busy bs : existsb is_open bs = true -> existsb busy bs = true.
Proof.
  rewrite !existsb_nth. intros [i [x [Hi Hx]]]. exists i, x. split; auto.
  unfold is_open in Hx. unfold busy. destruct (sb_state x); auto; discriminate.
Qed.

Lemma stable_closed_by x bs :
  (forall j sb, nth_error bs j = Some sb -> is_stable sb = true) ->
  forallb (closed_by x) bs = true -> forallb is_closed bs = true.
Proof.
  rewrite !forallb_nth. intros Hs H i sb Hi. specialize (Hs i sb Hi). specialize (H i sb Hi).
  unfold is_stable, is_closed, is_open, closed_by in *. destruct (sb_state sb); auto; discriminate.
Qed.

Lemma brel_pd_closed now n ps pd ps' pd' k sb a : is_closed sb = true ->
  brel now n ps pd k sb a -> brel now n ps' pd' k sb a.
Proof.
  intros Hc [Ba Bi Be Bs Bo Bp Br Bn]. unfold is_closed in Hc. unfold busy in *.
  destruct (sb_state sb) eqn:E; try discriminate.
  constructor; unfold busy; rewrite ?E; auto.
Qed.

(* All banks closed: any mode change that leaves the banks alone. *)
Lemma rank_event_closed p now n rk rk' d d' K :
  Rel p now n rk d K -> forallb is_closed (dv_banks d) = true -> dv_banks d' = dv_banks d ->
  rk_banks rk' = rk_banks rk -> rk_memState rk' = mem_of (dv_mode d') ->
  rk_endRefresh rk' = rk_endRefresh rk ->
  ivrel now (rk_act rk') false (n_act K) ->
  ivrel now (rk_pda rk') (mode_is ActPd d') (n_pda K) ->
  ivrel now (rk_pdp rk') (mode_is PrePd d') (n_pdp K) ->
  ivrel now (rk_sref rk') (mode_is SelfRef d' || mode_is DeepSleep d') (n_sref K + n_dsm K) ->
  ivrel now (rk_dsm rk') (mode_is DeepSleep d') (n_dsm K) ->
  dev_ok (iv_get_start (rk_pda rk')) d' ->
  Rel p now n rk' d' K.
Proof.
  intros R Hc Hb Hrb Hm Her H1 H2 H3 H4 H5 HO. destruct R as [rl_len0 rl_bank0 rl_mem0 rl_act0 rl_pda0 rl_pdp0 rl_sref0 rl_dsm0 rl_end0 rl_ok0 rl_bsum0 rl_sum0].
  constructor; auto; rewrite ?Hb, ?Hrb, ?Her; auto.
  - unfold bnk. rewrite Hrb. intros b k sb Hk Hs.
    eapply brel_pd_closed; [|eapply rl_bank0; eauto].
    rewrite forallb_nth in Hc. eauto.
  - unfold rank_acts. rewrite Hb, (none_busy _ Hc). exact H1.
Qed.

Lemma mode_change p now n rk d K x :
  now < two64 -> Rel p now n rk d K ->
  rank_ev d = [(now, x)] ->
  (forall j sb, nth_error (dv_banks d) j = Some sb -> is_stable sb = true) ->
  Rel p now n (exec_ric p now x rk) (settle now d) K.
Proof.
  intros Ht R He Hs.
  assert (map (settle_bank now) (dv_banks d) = dv_banks d) as EB.
  { apply nth_error_ext. intros j. rewrite nth_error_map. destruct (nth_error (dv_banks d) j) as [sb|] eqn:E; auto.
    cbn. f_equal. specialize (Hs j sb E). unfold is_stable, is_closed, is_open in Hs. unfold settle_bank.
    destruct (sb_state sb); auto; discriminate. }
  pose proof (rl_ok _ _ _ _ _ _ R) as O. unfold dev_ok in O.
  unfold rank_ev in He. unfold settle.
  destruct (dv_pend d) as [[y m]|] eqn:Ep; [|discriminate]. rewrite EB. cbn [fst].
  assert (y = now) as -> by (destruct m, (dv_mode d); cbn in He; congruence).
  rewrite N.leb_refl.
  destruct m.
  - (* leaving power-down *)
    destruct (dv_mode d) eqn:M; try discriminate; injection He as <-; cbn [exec_ric].
    + (* active *)
      destruct O as [O1 O2]. rewrite forallb_nth in O2.
      set (rk' := x_pdaOut p now rk).
      destruct (rl_len _ _ _ _ _ _ R) as [L1 L2].
      assert (mode_is ActPd d = true) as MA by (unfold mode_is; rewrite M; reflexivity).
      (* every bank *)
      assert (forall b k sb, bnk b rk = Some k -> nth_error (dv_banks d) b = Some sb ->
                (if is_open sb then b_exec p now RI_pdaOut b rk k = bk_set_act (iv_start_at now (bk_act k)) k
                 else b_exec p now RI_pdaOut b rk k = k)) as HX.
      { intros b k sb Hk Hsb.
        pose proof (rl_bank _ _ _ _ _ _ R b k sb Hk Hsb) as [Ba Bi Be Bs Bo Bp Br Bn].
        rewrite MA in *. specialize (O2 b sb Hsb). cbn in O2.
        unfold is_open, is_closed, closed_before, busy in *. cbn [b_exec].
        destruct (sb_state sb) eqn:Es; cbn in O2; try discriminate.
        - (* closed *)
          assert ((negb (cs_act (bk_counter k) =? 0) && (iv_get_end (bk_act k) =? iv_get_start (rk_pda rk))) = false) as Z.
          { destruct Be as [Be Be2]. unfold iv_get_end. rewrite Be.
            destruct (sb_off sb) as [z|]; [|rewrite (Be2 eq_refl) in Bs; rewrite Bs; reflexivity].
            destruct (N.eqb_spec z (iv_get_start (rk_pda rk))); [lia|]. apply andb_false_r. }
          rewrite Ba, Z. destruct (ms_std p); reflexivity.
        - assert ((negb (cs_act (bk_counter k) =? 0) && (iv_get_end (bk_act k) =? iv_get_start (rk_pda rk))) = true) as Z.
          { unfold iv_get_end. rewrite (Be eq_refl). rewrite N.eqb_refl, andb_true_r.
            destruct (sb_since sb); [|congruence]. destruct Bs as [_ [Bs _]].
            destruct (N.eqb_spec (cs_act (bk_counter k)) 0); [congruence|reflexivity]. }
          rewrite Ba, Z. destruct (ms_std p); reflexivity. }
      assert (exists b0 k0, bnk b0 rk = Some k0 /\ bk_active k0 = true /\ resumes rk k0 = true) as [b0 [k0 [Hk0 [Ha0 Hr0]]]].
      { apply existsb_nth in O1 as [b0 [sb0 [Hb0 Ho0]]].
        destruct (rel_bank_ex _ _ _ _ _ _ b0 R ltac:(apply nth_error_some_lt in Hb0; lia)) as [k0 [sb [Hk0 [Hsb B]]]].
        rewrite Hb0 in Hsb; injection Hsb as <-. exists b0, k0. split; auto.
        destruct B as [Ba Bi Be Bs Bo Bp Br Bn]. rewrite MA in *. unfold is_open, busy in *.
        destruct (sb_state sb0); try discriminate. split; auto.
        unfold resumes, iv_get_end. rewrite (Be eq_refl), N.eqb_refl, andb_true_r.
        destruct (sb_since sb0); [|congruence]. destruct Bs as [_ [Bs _]].
        destruct (N.eqb_spec (cs_act (bk_counter k0)) 0); [congruence|reflexivity]. }
      assert (rk_memState rk' = NOT_IN_PD /\ rk_pda rk' = iv_close now (rk_pda rk) /\ rk_pdp rk' = rk_pdp rk /\
              rk_sref rk' = rk_sref rk /\ rk_dsm rk' = rk_dsm rk /\ rk_endRefresh rk' = rk_endRefresh rk /\
              rk_act rk' = iv_start_at now (rk_act rk)) as [F1 [F2 [F3 [F4 [F5 [F6 F7]]]]]].
      { unfold rk', x_pdaOut. cbv zeta.
        set (r1 := rk_set_pda (iv_close now (rk_pda rk)) (rk_set_memState NOT_IN_PD rk)).
        assert (existsb (resumes r1) (rk_banks r1) = true) as EX.
        { apply existsb_nth. exists b0, k0. split; [exact Hk0|].
          unfold resumes in *. cbn. rewrite iv_get_start_close. exact Hr0. }
        rewrite EX.
        destruct (ms_std p); try (cbn; repeat split; fail).
        match goal with |- context [if ?b then _ else _] => assert (b = true) as EA end.
        { unfold rank_is_active. apply orb_true_iff; left. cbn.
          apply existsb_nth. exists b0. rewrite nth_error_map. unfold bnk in Hk0. rewrite Hk0. cbn.
          eexists; split; [reflexivity|]. rewrite Ha0. exact Ha0. }
        rewrite EA. cbn; repeat split. }
      assert (mode_is ActPd (mkDev (map (wake_bank now) (dv_banks d)) Up None) = false) as MU by reflexivity.
      destruct R as [rl_len0 rl_bank0 rl_mem0 rl_act0 rl_pda0 rl_pdp0 rl_sref0 rl_dsm0 rl_end0 rl_ok0 rl_bsum0 rl_sum0]; constructor; cbn [dv_banks dv_mode]; rewrite ?F1, ?F2, ?F3, ?F4, ?F5, ?F6, ?F7; auto.
      * rewrite map_length. split; auto. pose proof (nbk_exec_ric p now RI_pdaOut rk) as Z. cbn [exec_ric] in Z.
        unfold nbk in Z. fold rk' in Z. lia.
      * intros b k sb Hk Hsb. rewrite MU. unfold rk' in Hk.
        change (x_pdaOut p now rk) with (exec_ric p now RI_pdaOut rk) in Hk. rewrite bnk_exec_ric in Hk.
        rewrite nth_error_map in Hsb.
        destruct (bnk b rk) as [k1|] eqn:Ek; cbn in Hk; [|discriminate].
        destruct (nth_error (dv_banks d) b) as [sb1|] eqn:Es; cbn in Hsb; [|discriminate].
        injection Hsb as <-. specialize (HX b k1 sb1 Ek Es).
        specialize (O2 b sb1 Es). cbn in O2.
        pose proof (rl_bank0 b k1 sb1 Ek Es) as B.
        destruct (is_open sb1) eqn:EO.
        -- assert (sb_state sb1 = Open) as Eo by (unfold is_open in EO; destruct (sb_state sb1); auto; discriminate).
           destruct B as [Ba Bi Be Bs Bo Bp Br Bn]. rewrite MA in *.
           unfold wake_bank; rewrite Eo in *. unfold busy in *. rewrite Eo in *. cbn [andb negb] in *.
           injection Hk as <-. cbn [b_exec] in HX. rewrite HX.
           constructor; unfold busy; cbn [sb_state sb_since sb_pre sb_off bk_active bk_act bk_set_act bk_counter bk_latestPre bk_refreshEnd andb negb iv_start_at iv_start]; auto.
           ++ apply ivrel_start; auto.
           ++ discriminate.
           ++ destruct (sb_since sb1); [|congruence]. destruct Bs as [_ [Bs _]]. repeat split; auto. lia.
           ++ discriminate.
        -- cbn in O2. apply andb_true_iff in O2 as [Oc _].
           injection Hk as <-. cbn [b_exec] in HX. rewrite HX.
           assert (wake_bank now sb1 = sb1) as ->.
           { unfold wake_bank. unfold is_closed in Oc. destruct (sb_state sb1); auto; discriminate. }
           eapply brel_pd_closed; eauto.
      * unfold rank_acts. cbn [dv_banks]. rewrite MU. cbn [negb]. rewrite andb_true_r.
        assert (existsb busy (map (wake_bank now) (dv_banks d)) = true) as ->.
        { apply existsb_nth in O1 as [i [sb [Hi Ho]]]. apply existsb_nth. exists i, (wake_bank now sb).
          rewrite nth_error_map, Hi. split; auto. unfold wake_bank, is_open, busy in *.
          destruct (sb_state sb); auto; discriminate. }
        apply ivrel_start. eapply ivrel_ext; [exact rl_act0| |reflexivity].
        unfold rank_acts. rewrite MA. apply andb_false_r.
      * eapply ivrel_close; eauto.
      * unfold mode_is in rl_pdp0 |- *. rewrite M in rl_pdp0. exact rl_pdp0.
      * unfold mode_is in rl_sref0 |- *. rewrite M in rl_sref0. exact rl_sref0.
      * unfold mode_is in rl_dsm0 |- *. rewrite M in rl_dsm0. exact rl_dsm0.
      * intros G. exfalso. apply existsb_nth in O1 as [i [sb [Hi Ho]]].
        specialize (rl_end0 G i sb Hi). unfold is_open in Ho. rewrite rl_end0 in Ho. discriminate.
      * exact I.
    + (* precharge *)
      assert (rk_banks (x_pdpOut p now rk) = rk_banks rk) as EBK.
      { unfold x_pdpOut. cbv zeta. destruct (ms_std p); cbn; auto.
        apply nth_error_ext. intros j. rewrite nth_error_map.
        destruct (nth_error (rk_banks rk) j) as [k|] eqn:Ek; auto. cbn. f_equal.
        destruct (rl_len _ _ _ _ _ _ R) as [L1 L2].
        destruct (rel_bank_ex _ _ _ _ _ _ j R ltac:(apply nth_error_some_lt in Ek; lia)) as [k0 [sb [Hk0 [Hsb B]]]].
        unfold bnk in Hk0. rewrite Ek in Hk0; injection Hk0 as <-.
        rewrite forallb_nth in O. destruct (closed_brel_closed _ _ _ _ _ _ _ B (O j sb Hsb)) as [_ ->]. reflexivity. }
      assert (rk_memState (x_pdpOut p now rk) = NOT_IN_PD /\ rk_pda (x_pdpOut p now rk) = rk_pda rk /\
              rk_pdp (x_pdpOut p now rk) = iv_close now (rk_pdp rk) /\
              rk_sref (x_pdpOut p now rk) = rk_sref rk /\ rk_dsm (x_pdpOut p now rk) = rk_dsm rk /\
              rk_endRefresh (x_pdpOut p now rk) = rk_endRefresh rk /\
              rk_act (x_pdpOut p now rk) = rk_act rk) as [F1 [F2 [F3 [F4 [F5 [F6 F7]]]]]].
      { unfold x_pdpOut. cbv zeta. destruct (ms_std p); cbn; repeat split. }
      eapply rank_event_closed; eauto; cbn [dv_banks dv_mode]; rewrite ?F1, ?F2, ?F3, ?F4, ?F5, ?F6, ?F7; auto.
      * pose proof (rl_act _ _ _ _ _ _ R) as H. unfold rank_acts in H. rewrite (none_busy _ O) in H. exact H.
      * pose proof (rl_pda _ _ _ _ _ _ R) as H. unfold mode_is in *. rewrite M in H. exact H.
      * eapply ivrel_close; eauto. apply (rl_pdp _ _ _ _ _ _ R).
      * pose proof (rl_sref _ _ _ _ _ _ R) as H. unfold mode_is in *. rewrite M in H. exact H.
      * pose proof (rl_dsm _ _ _ _ _ _ R) as H. unfold mode_is in *. rewrite M in H. exact H.
      * exact I.
  - (* entering active power-down *)
    destruct (dv_mode d) eqn:M; try tauto. injection He as <-. cbn [exec_ric].
    destruct O as [O1 O2].
    set (rk' := x_pdaIn now rk).
    assert (mode_is ActPd d = false) as MA by (unfold mode_is; rewrite M; reflexivity).
    assert (iv_get_start (rk_pda rk') = now) as PS by reflexivity.
    assert (mode_is ActPd (mkDev (dv_banks d) ActPd None) = true) as MU by reflexivity.
    destruct R as [rl_len0 rl_bank0 rl_mem0 rl_act0 rl_pda0 rl_pdp0 rl_sref0 rl_dsm0 rl_end0 rl_ok0 rl_bsum0 rl_sum0]; constructor; cbn [dv_banks dv_mode]; rewrite ?PS, ?MU; auto.
    + destruct rl_len0. split; auto. cbn. rewrite map_length; auto.
    + intros b k sb Hk Hsb. unfold rk' in Hk. change (x_pdaIn now rk) with (exec_ric p now RI_pdaIn rk) in Hk.
      rewrite bnk_exec_ric in Hk. destruct (bnk b rk) as [k1|] eqn:Ek; cbn in Hk; [|discriminate].
      injection Hk as <-. pose proof (rl_bank0 b k1 sb Ek Hsb) as B. rewrite MA in B.
      specialize (Hs b sb Hsb). unfold is_stable in Hs.
      destruct (is_closed sb) eqn:EC.
      * destruct (closed_brel_closed _ _ _ _ _ _ _ B EC) as [Z _]. rewrite iv_close_closed, bk_eta by auto.
        eapply brel_pd_closed; eauto.
      * cbn in Hs. assert (sb_state sb = Open) as Eo by (unfold is_open in Hs; destruct (sb_state sb); auto; discriminate).
        destruct B as [Ba Bi Be Bs Bo Bp Br Bn]. unfold busy in *. rewrite Eo in *. cbn [andb negb] in *.
        constructor; unfold busy; rewrite ?Eo; cbn [bk_active bk_act bk_set_act bk_counter bk_latestPre bk_refreshEnd andb negb]; auto.
        -- eapply ivrel_close; eauto.
        -- intros _. unfold iv_close. destruct Bi as [_ [-> _]]. reflexivity.
        -- destruct (sb_since sb); auto. destruct Bs as [Bs1 Bs2]. split; auto.
           unfold iv_close. destruct (iv_is_open (bk_act k1)); auto.
    + unfold rank_acts. rewrite MU. cbn [negb]. rewrite andb_false_r. cbn. eapply ivrel_close; eauto.
    + rewrite MA in rl_pda0. apply ivrel_start in rl_pda0. exact rl_pda0.
    + unfold mode_is in rl_pdp0 |- *. rewrite M in rl_pdp0. exact rl_pdp0.
    + unfold mode_is in rl_sref0 |- *. rewrite M in rl_sref0. exact rl_sref0.
    + unfold mode_is in rl_dsm0 |- *. rewrite M in rl_dsm0. exact rl_dsm0.
    + unfold dev_ok. cbn. split; auto. rewrite forallb_nth in O2 |- *. intros i sb Hi.
      specialize (O2 i sb Hi). specialize (Hs i sb Hi). unfold is_stable in Hs. cbn in O2.
      destruct (is_open sb); auto. cbn in *. rewrite orb_false_r in Hs. rewrite Hs. exact O2.
  - (* entering precharge power-down *)
    destruct (dv_mode d) eqn:M; try tauto. injection He as <-. cbn [exec_ric].
    apply stable_closed_by in O; auto.
    assert (rk_banks (x_pdpIn p now rk) = rk_banks rk) as EBK.
    { unfold x_pdpIn. destruct (ms_std p); cbn; auto.
      apply nth_error_ext. intros j. rewrite nth_error_map.
      destruct (nth_error (rk_banks rk) j) as [k|] eqn:Ek; auto. cbn. f_equal.
      destruct (rl_len _ _ _ _ _ _ R) as [L1 L2].
      destruct (rel_bank_ex _ _ _ _ _ _ j R ltac:(apply nth_error_some_lt in Ek; lia)) as [k0 [sb [Hk0 [Hsb B]]]].
      unfold bnk in Hk0. rewrite Ek in Hk0; injection Hk0 as <-.
      rewrite forallb_nth in O. destruct (closed_brel_closed _ _ _ _ _ _ _ B (O j sb Hsb)) as [Z _].
      rewrite iv_close_closed by auto. apply bk_eta. }
    assert (rk_memState (x_pdpIn p now rk) = PDN_PRE /\ rk_pda (x_pdpIn p now rk) = rk_pda rk /\
            rk_pdp (x_pdpIn p now rk) = iv_start_at now (rk_pdp rk) /\
            rk_sref (x_pdpIn p now rk) = rk_sref rk /\ rk_dsm (x_pdpIn p now rk) = rk_dsm rk /\
            rk_endRefresh (x_pdpIn p now rk) = rk_endRefresh rk /\
            (rk_act (x_pdpIn p now rk) = rk_act rk \/ rk_act (x_pdpIn p now rk) = iv_close now (rk_act rk)))
      as [F1 [F2 [F3 [F4 [F5 [F6 F7]]]]]].
    { unfold x_pdpIn. destruct (ms_std p); cbn; repeat split; auto. }
    pose proof (rl_act _ _ _ _ _ _ R) as HA. unfold rank_acts in HA. rewrite (none_busy _ O) in HA. cbn in HA.
    eapply rank_event_closed; eauto; cbn [dv_banks dv_mode]; rewrite ?F1, ?F2, ?F3, ?F4, ?F5, ?F6; auto.
    + destruct F7 as [->| ->]; auto. eapply ivrel_close; eauto.
    + pose proof (rl_pda _ _ _ _ _ _ R) as H. unfold mode_is in *. rewrite M in H. exact H.
    + pose proof (rl_pdp _ _ _ _ _ _ R) as H. unfold mode_is in H. rewrite M in H. apply ivrel_start in H. exact H.
    + pose proof (rl_sref _ _ _ _ _ _ R) as H. unfold mode_is in *. rewrite M in H. exact H.
    + pose proof (rl_dsm _ _ _ _ _ _ R) as H. unfold mode_is in *. rewrite M in H. exact H.
  - (* entering self-refresh *)
    destruct (dv_mode d) eqn:M; try tauto. injection He as <-. cbn [exec_ric].
    apply stable_closed_by in O; auto.
    pose proof (rl_act _ _ _ _ _ _ R) as HA. unfold rank_acts in HA. rewrite (none_busy _ O) in HA. cbn in HA.
    eapply rank_event_closed; eauto; cbn [dv_banks dv_mode]; auto.
    + pose proof (rl_pda _ _ _ _ _ _ R) as H. unfold mode_is in *. rewrite M in H. exact H.
    + pose proof (rl_pdp _ _ _ _ _ _ R) as H. unfold mode_is in *. rewrite M in H. exact H.
    + pose proof (rl_sref _ _ _ _ _ _ R) as H. unfold mode_is in H. rewrite M in H. apply ivrel_start in H. exact H.
    + pose proof (rl_dsm _ _ _ _ _ _ R) as H. unfold mode_is in *. rewrite M in H. exact H.
  - destruct (dv_mode d); discriminate.
Qed.
