(* Every legal command keeps the model of a rank in step with the reference machine. *)
From Coq Require Import ZArith NArith List Bool Lia ZifyBool ZifyNat ZifyN Sorting.Sorted Permutation.
From Verif Require Import Base Command CoreModel ListFacts QueueProofs CoreBasics HistorySpec CoreHistory CoreBounds DeviceSpec RefineBase RefineSteps RefineRun.
Import ListNotations.
Local Open Scope N_scope.

(* ---- when a power-down transition may happen ---- *)

Lemma fold_max {A} (f : A -> N) l a :
  fold_left (fun e k => N.max e (f k)) l a = N.max a (fold_right N.max 0 (map f l)).
Proof. revert a; induction l as [|x l IH]; intros a; cbn; [lia|]. rewrite IH. lia. Qed.

Lemma max_ext_nth {A B} now (f : A -> N) (g : B -> N) l l' :
  length l = length l' ->
  (forall i x y, nth_error l i = Some x -> nth_error l' i = Some y -> N.max now (f x) = N.max now (g y)) ->
  N.max now (fold_right N.max 0 (map f l)) = N.max now (fold_right N.max 0 (map g l')).
Proof.
  revert l'; induction l as [|x l IH]; intros [|y l'] L H; cbn in *; try discriminate; auto.
  pose proof (H 0%nat x y eq_refl eq_refl). specialize (IH l' ltac:(lia) (fun i a b => H (S i) a b)). lia.
Qed.

Lemma ready_eq p now n rk d K : now + tmax p < two64 -> Rel p now n rk d K ->
  N.max now (earliest_pd p rk) = N.max now (ready p (dv_banks d)).
Proof.
  intros Ht R. pose proof (tmax_ge p) as T. destruct (rl_len _ _ _ _ _ _ R) as [L1 L2].
  unfold earliest_pd, ready. rewrite fold_max, N.max_0_l. apply max_ext_nth; [lia|].
  intros i k sb Hk Hs. destruct (rl_bank _ _ _ _ _ _ R i k sb Hk Hs) as [Ba Bi Be Bs Bo Bp Br Bn].
  unfold bank_pd_time, bank_ready.
  assert (t_rcd p = act_delay p /\ act_delay p <= tmax p) as [-> Hd]
    by (unfold t_rcd, act_delay; destruct (ms_std p); split; auto; lia).
  assert ((if cs_act (bk_counter k) =? 0 then 0 else u64_add (iv_get_start (bk_act k)) (act_delay p)) =
          match sb_since sb with Some s => s + act_delay p | None => 0 end) as ->.
  { destruct (sb_since sb) as [s|].
    - destruct Bs as [B1 [B2 B3]]. destruct (N.eqb_spec (cs_act (bk_counter k)) 0); [congruence|].
      unfold iv_get_start. rewrite B1. apply u64_add_small. lia.
    - rewrite Bs. reflexivity. }
  assert ((if cs_pre (bk_counter k) =? 0 then 0 else u64_add (bk_latestPre k) (ms_tRP p)) =
          match sb_pre sb with Some x => x + ms_tRP p | None => 0 end) as ->.
  { destruct (sb_pre sb) as [s|].
    - destruct Bp as [B1 [B2 B3]]. destruct (N.eqb_spec (cs_pre (bk_counter k)) 0); [congruence|].
      rewrite B1. apply u64_add_small. lia.
    - rewrite Bp. reflexivity. }
  destruct (sb_state sb); try rewrite Br; try lia.
Qed.

(* ---- queue after a command ---- *)

Lemma r_enqueue_perm evs q : Permutation (evs ++ q) (r_enqueue evs q).
Proof.
  revert q; induction evs as [|[ts x] evs IH]; intros q; cbn [r_enqueue fold_left]; auto.
  fold (r_enqueue evs (q_insert ts x q)). rewrite <- IH. cbn [fst snd app].
  rewrite Permutation_middle. apply Permutation_app_head. apply q_insert_perm.
Qed.

Lemma r_enqueue_sorted evs q : tsorted q -> tsorted (r_enqueue evs q).
Proof.
  revert q; induction evs as [|[ts x] evs IH]; intros q H; cbn; auto.
  apply IH. apply q_insert_sorted; auto.
Qed.

Lemma r_enqueue_app e1 e2 q : r_enqueue (e1 ++ e2) q = r_enqueue e2 (r_enqueue e1 q).
Proof. unfold r_enqueue. apply fold_left_app. Qed.

Lemma r_enqueue_time now evs q : Forall (fun e => now <= fst e) q -> (forall e, In e evs -> now <= fst e) ->
  Forall (fun e => now <= fst e) (r_enqueue evs q).
Proof.
  intros F H. eapply Permutation_Forall; [apply r_enqueue_perm|].
  apply Forall_app. split; auto. apply Forall_forall. auto.
Qed.

Lemma q_insert_last ts x (q : events) : Forall (fun e => fst e <= ts) q -> q_insert ts x q = q ++ [(ts, x)].
Proof.
  induction q as [|[t y] q IH]; intros F; cbn; auto. inversion F as [|? ? H1 H2]; subst; cbn in H1.
  destruct (N.ltb_spec ts t); [lia|]. rewrite IH; auto.
Qed.

(* ---- commands on banks ---- *)

(* A bank that is not being refreshed: no all-bank refresh is running. *)
Lemma end_passed p now n rk d K b sb : Rel p now n rk d K -> nth_error (dv_banks d) b = Some sb ->
  is_stable sb = true -> rk_endRefresh rk <= now.
Proof.
  intros R Hb Hs. destruct (N.le_gt_cases (rk_endRefresh rk) now) as [|G]; auto. exfalso.
  pose proof (rl_end _ _ _ _ _ _ R G b sb Hb) as E. unfold is_stable, is_closed, is_open in Hs.
  rewrite E in Hs. discriminate.
Qed.

Lemma touch_length p c g bs : length (touch p c g bs) = length bs.
Proof. apply mapi_length. Qed.

Lemma touch_step p c now n rk q d K f rk' evs g :
  cmd_ts c = now -> now + tmax p < two64 ->
  Rel p now n rk d K -> qrel now q d -> dv_mode d = Up -> dv_pend d = None ->
  dispatch p c = A_rank f -> f rk = Ok (rk', evs) ->
  same_fields rk rk' ->
  ivrel now (rk_act rk') (existsb bk_active (rk_banks rk')) (n_act K) ->
  (now < rk_endRefresh rk' -> forall b sb, nth_error (touch p c g (dv_banks d)) b = Some sb ->
     sb_state sb = Refreshing (rk_endRefresh rk')) ->
  (forall b k sb, footprint p c b = true -> (b < ms_banks p)%nat -> nth_error (dv_banks d) b = Some sb ->
     brel now n (iv_get_start (rk_pda rk)) false k sb (n_bank K b) ->
     brel now (n + 1) (iv_get_start (rk_pda rk)) false (b_cmd p c b k) (g sb) (n_bank K b)) ->
  Permutation (evs ++ bank_evs 0 (dv_banks d)) (bank_evs 0 (touch p c g (dv_banks d))) ->
  r_apply p c (rk, q) = Ok (rk', r_enqueue evs q) /\
  Rel p now (n + 1) rk' (with_banks (touch p c g (dv_banks d)) d) K /\
  qrel now (r_enqueue evs q) (with_banks (touch p c g (dv_banks d)) d).
Proof.
  intros Hts Ht R Q M P Hd Hf SF HA HE HB HP.
  destruct (rl_len _ _ _ _ _ _ R) as [L1 L2].
  split; [|split].
  - unfold r_apply. rewrite Hd. cbn [fst snd]. rewrite Hf. reflexivity.
  - pose proof (nbk_dispatch p c f rk Hd) as NB. rewrite Hf in NB. cbn in NB. unfold nbk in NB.
    eapply Rel_up; eauto; cbn [with_banks dv_banks dv_mode]; auto.
    + congruence.
    + rewrite touch_length; auto.
    + intros b k sb Hk Hs. rewrite nth_error_touch in Hs.
      assert (b < nbk rk)%nat as Hb.
      { unfold bnk in Hk. apply nth_error_some_lt in Hk. unfold nbk. lia. }
      rewrite (bnk_dispatch p c f rk rk' evs b Hd Hf Hb) in Hk.
      destruct (rel_bank_ex _ _ _ _ _ _ b R ltac:(unfold nbk in Hb; lia)) as [k0 [sb0 [Hk0 [Hs0 B]]]].
      rewrite Hk0 in Hk. rewrite Hs0 in Hs. cbn in Hk, Hs. injection Hk as <-. injection Hs as <-.
      unfold mode_is in B. rewrite M in B. cbn [smode_beq] in B.
      destruct (footprint p c b) eqn:Ef.
      * apply HB; auto. unfold nbk in Hb; lia.
      * rewrite b_cmd_frame by auto. eapply brel_mono; [|exact B]. lia.
    + unfold dev_ok. cbn. rewrite M, P. exact I.
  - destruct Q as [[qb [-> Hp]] Hs Hf2]. unfold rank_ev in *. rewrite P in *. rewrite app_nil_r in *.
    constructor.
    + exists (r_enqueue evs qb). unfold rank_ev. cbn [with_banks dv_pend dv_banks]. rewrite P, app_nil_r. split; auto.
      rewrite <- r_enqueue_perm, Hp. exact HP.
    + apply r_enqueue_sorted; auto.
    + apply r_enqueue_time; auto. intros e He. rewrite <- Hts. eapply dispatch_events_after; eauto. lia.
Qed.

(* Refresh of a set of closed banks. *)
Lemma refresh_evs p c now tm bs ids :
  NoDup ids -> (forall b, (b < length bs)%nat -> In b ids <-> footprint p c b = true) ->
  (forall b, In b ids -> (b < length bs)%nat) ->
  addressed p c is_closed bs = true ->
  Permutation (map (fun b => (now + tm, RI_refEnd b)) ids ++ bank_evs 0 bs)
              (bank_evs 0 (touch p c (refresh_bank now (now + tm)) bs)).
Proof.
  intros Hn Hi Hr Ha. rewrite (touch_fold p c _ bs ids Hn Hi).
  apply fold_evs; auto. intros b sb Hb Hs.
  assert (is_closed sb = true) as Hc.
  { eapply addressed_spec; eauto. apply Hi; auto. }
  unfold is_stable. rewrite Hc. split; reflexivity.
Qed.

Lemma stable_evs p c bs g : (forall b sb, nth_error bs b = Some sb -> footprint p c b = true -> sb_ev b (g sb) = sb_ev b sb) ->
  bank_evs 0 (touch p c g bs) = bank_evs 0 bs.
Proof.
  unfold touch. intros H.
  assert (forall i, (forall j sb, nth_error bs j = Some sb -> footprint p c (i + j) = true -> sb_ev (i + j) (g sb) = sb_ev (i + j) sb) ->
    bank_evs i (mapi i (fun i b => if footprint p c i then g b else b) bs) = bank_evs i bs) as G.
  { clear H. induction bs as [|b bs IH]; intros i H; cbn; auto. rewrite IH.
    - f_equal. specialize (H 0%nat b eq_refl). rewrite Nat.add_0_r in H. destruct (footprint p c i); auto.
    - intros j sb Hj. specialize (H (S j) sb Hj). rewrite Nat.add_succ_r in H. exact H. }
  apply G. exact H.
Qed.

Lemma autoclose_evs p c now off bs b sb : footprint p c b = true ->
  (forall j, footprint p c j = true -> j = b) -> nth_error bs b = Some sb -> is_open sb = true ->
  Permutation (sb_ev b (autoclose_bank p now off sb) ++ bank_evs 0 bs)
              (bank_evs 0 (touch p c (autoclose_bank p now off) bs)).
Proof.
  intros Hf Hu Hb Ho. rewrite (touch_fold p c _ bs [b]).
  - cbn [fold_left]. pose proof (bank_evs_upd 0 b bs sb (autoclose_bank p now off) Hb) as P. cbn [Nat.add] in P.
    assert (sb_ev b sb = []) as E by (unfold is_open in Ho; unfold sb_ev; destruct (sb_state sb); auto; discriminate).
    rewrite E in P. cbn [app] in P. rewrite P. reflexivity.
  - constructor; [cbn; tauto|constructor].
  - intros j _. cbn. split; [intros [<-|[]]; auto|intros H; left; symmetry; auto].
Qed.

Section Commands.
Context (p : memspec) (c : Command) (now n : N) (rk : rank) (q : events) (d : device) (K : cnts).
Context (Hts : cmd_ts c = now) (Ht : now + tmax p < two64) (Hn : n + 1 < two64).
Context (R : Rel p now n rk d K) (Q : qrel now q d) (M : dv_mode d = Up) (P : dv_pend d = None).

Definition follows (d' : device) : Prop :=
  exists st', r_apply p c (rk, q) = Ok st' /\ Rel p now (n + 1) (fst st') d' K /\ qrel now (snd st') d'.

Let ps := iv_get_start (rk_pda rk).

Lemma len_rk : length (rk_banks rk) = ms_banks p.
Proof. apply R. Qed.
Lemma len_d : length (dv_banks d) = ms_banks p.
Proof. apply R. Qed.

(* The bank addressed by c, when c addresses one bank. *)
Lemma one_bank b : (b < ms_banks p)%nat ->
  exists k sb, bnk b rk = Some k /\ nth_error (dv_banks d) b = Some sb /\ brel now n ps false k sb (n_bank K b).
Proof.
  intros Hb. destruct (rel_bank_ex _ _ _ _ _ _ b R Hb) as [k [sb [H1 [H2 H3]]]].
  exists k, sb. unfold mode_is in H3. rewrite M in H3. auto.
Qed.

Lemma quiet_touch f rk' g b0 :
  dispatch p c = A_rank f -> f rk = Ok (rk', []) -> same_fields rk rk' ->
  (b0 < ms_banks p)%nat -> footprint p c b0 = true ->
  addressed p c is_stable (dv_banks d) = true ->
  (ract now rk (n_act K) -> ract now rk' (n_act K)) ->
  (forall b k sb, footprint p c b = true -> nth_error (dv_banks d) b = Some sb ->
     brel now n ps false k sb (n_bank K b) ->
     brel now (n + 1) ps false (b_cmd p c b k) (g sb) (n_bank K b) /\ sb_ev b (g sb) = sb_ev b sb) ->
  follows (with_banks (touch p c g (dv_banks d)) d).
Proof.
  intros Hd Hf SF Hb0 Hf0 Had Hr HB.
  destruct (one_bank b0 Hb0) as [k0 [sb0 [Hk0 [Hs0 B0]]]].
  pose proof (end_passed _ _ _ _ _ _ _ _ R Hs0 (addressed_spec _ _ _ _ Had b0 sb0 Hs0 Hf0)) as HE.
  destruct (Hr (rel_ract _ _ _ _ _ _ R M HE)) as [RA1 RA2].
  destruct (touch_step p c now n rk q d K f rk' [] g) as [E1 [E2 E3]]; auto.
  - intros G. lia.
  - intros b k sb Hfp Hb Hs B. apply (HB b k sb); auto.
  - cbn [app]. rewrite stable_evs; auto. intros b sb Hs Hfp.
    destruct (one_bank b) as [k [sb' [Hk [Hs' B]]]]; [apply nth_error_some_lt in Hs; pose proof len_d; lia|].
    rewrite Hs in Hs'. injection Hs' as <-. eapply (HB b k sb); eauto.
  - exists (rk', r_enqueue [] q). auto.
Qed.

Lemma refresh_touch f rk' kd tm ids b0 :
  dispatch p c = A_rank f -> f rk = Ok (rk', map (fun b => (u64_add now tm, RI_refEnd b)) ids) ->
  tm <= tmax p -> same_fields rk rk' -> kd <> K_act -> kd <> K_pre ->
  In b0 ids -> NoDup ids -> (forall b, In b ids -> (b < ms_banks p)%nat) ->
  (forall b, (b < ms_banks p)%nat -> In b ids <-> footprint p c b = true) ->
  addressed p c is_closed (dv_banks d) = true ->
  (forall b k, footprint p c b = true -> b_cmd p c b k = b_refresh kd now (u64_add now tm) k) ->
  (ract now rk (n_act K) -> ivrel now (rk_act rk') (existsb bk_active (rk_banks rk')) (n_act K)) ->
  (rk_endRefresh rk' = rk_endRefresh rk \/
   rk_endRefresh rk' = now + tm /\ forall b, (b < ms_banks p)%nat -> In b ids) ->
  follows (with_banks (touch p c (refresh_bank now (now + tm)) (dv_banks d)) d).
Proof.
  intros Hd Hf Htm SF K1 K2 Hb0 Hnd Hr Hi Had HB HA HE.
  rewrite u64_add_small in Hf, HB by lia.
  destruct (one_bank b0 (Hr b0 Hb0)) as [k0 [sb0 [Hk0 [Hs0 B0]]]].
  assert (is_closed sb0 = true) as C0.
  { eapply addressed_spec; eauto. apply Hi; auto. }
  assert (is_stable sb0 = true) as S0 by (unfold is_stable; rewrite C0; reflexivity).
  pose proof (end_passed _ _ _ _ _ _ _ _ R Hs0 S0) as HE0.
  pose proof (HA (rel_ract _ _ _ _ _ _ R M HE0)) as RA1.
  destruct (touch_step p c now n rk q d K f rk' (map (fun b => (now + tm, RI_refEnd b)) ids)
              (refresh_bank now (now + tm))) as [E1 [E2 E3]]; auto.
  - intros G b sb Hs. destruct HE as [HE|[HE HE2]]; [lia|].
    rewrite nth_error_touch in Hs. destruct (nth_error (dv_banks d) b) as [sb'|] eqn:Es; [|discriminate].
    cbn in Hs. injection Hs as <-.
    assert (b < ms_banks p)%nat as Hlt by (apply nth_error_some_lt in Es; pose proof len_d; lia).
    rewrite (proj1 (Hi b Hlt) (HE2 b Hlt)). cbn. rewrite HE. reflexivity.
  - intros b k sb Hfp Hb Hs B. rewrite HB by auto. eapply brel_mono; [|apply brel_refresh; eauto].
    + lia.
    + eapply addressed_spec; eauto.
  - apply refresh_evs; auto.
    + intros b Hb. apply Hi. rewrite <- len_d. auto.
    + intros b Hb. rewrite len_d. auto.
  - eexists (_, _). split; [exact E1|]. auto.
Qed.


Lemma refresh_banks_evs k tm t bs r : snd (refresh_banks k tm t bs r) = map (fun b => (u64_add t tm, RI_refEnd b)) bs.
Proof. rewrite refresh_banks_eq. reflexivity. Qed.

Lemma guard_some {A} b (x y : A) : guard b x = Some y -> b = true /\ x = y.
Proof. unfold guard. destruct b; [|discriminate]. intros [= <-]; auto. Qed.

Lemma closed_stable bs : addressed p c is_closed bs = true -> addressed p c is_stable bs = true.
Proof.
  unfold addressed. rewrite !forallb_forall. intros H x Hx.
  apply In_nth_error in Hx as [i Hi]. rewrite nth_error_mapi in Hi.
  destruct (nth_error bs i) as [sb|] eqn:E; [|discriminate]. cbn in Hi. injection Hi as <-.
  specialize (H (if footprint p c i then is_closed sb else true)).
  destruct (footprint p c i) eqn:Ef; auto. unfold is_stable. rewrite H; auto.
  apply (nth_error_In _ i). rewrite nth_error_mapi, E. cbn. rewrite Ef. reflexivity.
Qed.

(* Loops of handleRefreshOnBank. *)
Lemma refresh_loop kd tm ids f b0 :
  dispatch p c = A_rank f -> f rk = Ok (refresh_banks kd tm now ids rk) ->
  tm <= tmax p -> kd <> K_act -> kd <> K_pre ->
  In b0 ids -> NoDup ids -> (forall b, In b ids -> (b < ms_banks p)%nat) ->
  (forall b, (b < ms_banks p)%nat -> In b ids <-> footprint p c b = true) ->
  addressed p c is_closed (dv_banks d) = true ->
  (forall b k, footprint p c b = true -> b_cmd p c b k = b_refresh kd now (u64_add now tm) k) ->
  follows (with_banks (touch p c (refresh_bank now (now + tm)) (dv_banks d)) d).
Proof.
  intros Hd Hf Htm K1 K2 Hb0 Hnd Hr Hi Had HB.
  eapply (refresh_touch f (fst (refresh_banks kd tm now ids rk)) kd tm ids b0); eauto.
  - rewrite Hf, <- (refresh_banks_evs kd tm now ids rk). destruct (refresh_banks kd tm now ids rk); reflexivity.
  - apply sf_refresh_banks.
  - intros RA. eapply ract_refresh_banks; eauto. apply Forall_forall. intros b Hb. unfold nbk. rewrite len_rk. auto.
  - left. clear. rewrite refresh_banks_eq. cbn [fst]. generalize rk. induction ids as [|b l IH]; intros r; cbn [fold_left]; auto.
    rewrite IH. unfold h_refreshOnBank, start_if_idle. cbn [fst].
    match goal with |- context [if ?x then _ else _] => destruct x end; reflexivity.
Qed.

Lemma refAll_step f :
  (forall b, footprint p c b = true) -> (0 < ms_banks p)%nat ->
  dispatch p c = A_rank f -> f rk = Ok (h_refAll p now rk) ->
  addressed p c is_closed (dv_banks d) = true ->
  (forall b k, b_cmd p c b k = b_refresh K_refAllBank now (u64_add now (ms_tRFC p)) k) ->
  follows (with_banks (touch p c (refresh_bank now (now + ms_tRFC p)) (dv_banks d)) d).
Proof.
  intros Hfp Hpos Hd Hf Had HB. pose proof (tmax_ge p) as T.
  assert (h_refAll p now rk = (fst (h_refAll p now rk), map (fun b => (u64_add now (ms_tRFC p), RI_refEnd b)) (seq 0 (ms_banks p)))) as E.
  { rewrite <- len_rk. destruct (ms_std p) eqn:Es;
      [rewrite h_refAll_ddr4 by auto|rewrite h_refAll_other by congruence..]; unfold nbk; reflexivity. }
  rewrite E in Hf.
  assert (forall b, In b (seq 0 (ms_banks p)) <-> (b < ms_banks p)%nat) as Hseq by (intros b; rewrite in_seq; lia).
  eapply (refresh_touch f (fst (h_refAll p now rk)) K_refAllBank (ms_tRFC p) (seq 0 (ms_banks p)) 0%nat); eauto; try discriminate.
  - lia.
  - apply sf_h_refAll.
  - apply Hseq; auto.
  - apply seq_NoDup.
  - intros b; apply Hseq.
  - intros b Hb. rewrite Hseq, Hfp. tauto.
  - intros RA. eapply ivrel_ext; [apply refAll_act; [unfold nbk; rewrite len_rk; auto|exact RA]| |reflexivity].
    + symmetry. apply existsb_nth.
      assert (0 < nbk rk)%nat as H0 by (unfold nbk; rewrite len_rk; auto).
      pose proof (bnk_h_refAll p now 0 rk H0) as B.
      destruct (bnk_some 0 rk H0) as [k0 Hk0]. rewrite Hk0 in B. cbn [option_map] in B.
      eexists 0%nat, _. split; [exact B|reflexivity].
  - right. split; [|intros b; apply Hseq].
    rewrite <- (u64_add_small now (ms_tRFC p)) by lia.
    destruct (ms_std p) eqn:Es; [rewrite h_refAll_ddr4 by auto|rewrite h_refAll_other by congruence; reflexivity..].
    cbn [fst].
    assert (forall l r, rk_endRefresh (fold_left (fun r b => ddr4_ref_bank now (u64_add now (ms_tRFC p)) b r) l r) = rk_endRefresh r) as G.
    { induction l as [|x l IH]; intros r; cbn [fold_left]; auto. rewrite IH. reflexivity. }
    rewrite G. reflexivity.
Qed.


Lemma close_one b k sb : is_stable sb = true -> brel now n ps false k sb (n_bank K b) ->
  brel now (n + 1) ps false (b_pre now k) (close_bank now sb) (n_bank K b) /\ sb_ev b (close_bank now sb) = sb_ev b sb.
Proof.
  intros C B. unfold is_stable in C. unfold close_bank. destruct (is_open sb) eqn:Eo.
  - assert (sb_state sb = Open) as Es by (unfold is_open in Eo; destruct (sb_state sb); auto; discriminate).
    split.
    + eapply (brel_pre now n); eauto; try lia.
      pose proof (br_n _ _ _ _ _ _ _ B) as [_ B2]. rewrite Es in B2. lia.
    + unfold sb_ev. rewrite Es. reflexivity.
  - rewrite orb_false_r in C. split; auto.
    destruct (closed_brel_closed _ _ _ _ _ _ _ B C) as [_ Z]. unfold b_pre. rewrite Z.
    eapply brel_mono; [|exact B]. lia.
Qed.

Lemma iter_one {A} (h : A -> A) m x : m = 1%nat -> Nat.iter m h x = h x.
Proof. intros ->. reflexivity. Qed.


Section Up.
Context (d' : device).
Context (W : well_formed p) (S : in_standard p (cmd_type c) = true) (A : well_addressed p c = true).
Context (H : up_command p c d = Some d').

Ltac start E :=
  pose proof (tmax_ge p) as T; destruct W as [W1 W2];
  unfold up_command in H; rewrite E, Hts in H;
  unfold in_standard in S; unfold well_addressed in A; rewrite E in S, A;
  assert (dispatch p c = dispatch p c) as Hd by reflexivity;
  unfold dispatch at 2 in Hd; rewrite E, Hts in Hd; fold (addr c) in Hd; unfold on_bank, on_rank, on_banks in Hd;
  try (apply guard_some in H as [H' <-]).

Lemma step_ACT : cmd_type c = ACT -> follows d'.
Proof.
  intros E. start E.
  assert (addr c < ms_banks p)%nat as Hb by lia.
  eapply quiet_touch with (b0 := addr c); [exact Hd|cbn beta; rewrite len_rk, A; reflexivity|..]; auto.
  - apply sf_h_act.
  - unfold footprint. rewrite E. apply Nat.eqb_refl.
  - apply closed_stable; auto.
  - intros RA. apply ract_h_act; auto. unfold nbk. rewrite len_rk. auto.
  - intros b k sb Hf Hs B. assert (is_closed sb = true) as C by (eapply addressed_spec; eauto).
    unfold footprint in Hf. rewrite E in Hf. split.
    + unfold b_cmd. rewrite E, Hf, Hts. apply brel_act; auto.
    + unfold is_closed in C. unfold sb_ev. cbn. destruct (sb_state sb); auto; discriminate.
Qed.

Lemma step_PRE : cmd_type c = PRE -> follows d'.
Proof.
  intros E. start E.
  assert (addr c < ms_banks p)%nat as Hb by lia.
  eapply quiet_touch with (b0 := addr c); [exact Hd|cbn beta; rewrite len_rk, A; reflexivity|..]; auto.
  - apply sf_h_pre.
  - unfold footprint. rewrite E. apply Nat.eqb_refl.
  - intros RA. apply ract_h_pre; auto. lia.
  - intros b k sb Hf Hs B. assert (is_stable sb = true) as C by (eapply addressed_spec; eauto).
    unfold footprint in Hf. rewrite E in Hf.
    assert (b_cmd p c b k = b_pre now k) as -> by (unfold b_cmd; rewrite E, Hf, Hts; reflexivity).
    apply close_one; auto.
Qed.

Lemma step_PREA : cmd_type c = PREA -> follows d'.
Proof.
  intros E. start E.
  eapply quiet_touch with (b0 := 0%nat); [exact Hd|reflexivity|..]; auto.
  - apply (sf_fold (fun b r => h_pre now b r)). intros; apply sf_h_pre.
  - unfold footprint. rewrite E. auto.
  - intros RA. apply ract_pre_fold; auto. lia.
  - intros b k sb Hf Hs B. assert (is_stable sb = true) as C by (eapply addressed_spec; eauto).
    assert (b_cmd p c b k = b_pre now k) as -> by (unfold b_cmd; rewrite E, Hts; reflexivity).
    apply close_one; auto.
Qed.

Lemma same_facts : ms_std p = DDR5 -> (addr c < ms_banks p)%nat ->
  (0 < ms_banksPerGroup p)%nat /\
  same_index p (addr c) (addr c) = true /\
  (forall b, In b (same_bank_ids p (addr c)) -> (b < ms_banks p)%nat) /\
  forallb (fun i => Nat.ltb i (ms_banks p)) (same_bank_ids p (addr c)) = true.
Proof.
  intros Es Hb. destruct W as [W1 W2]. destruct (W2 Es) as [W3 W4].
  assert (forall b, In b (same_bank_ids p (addr c)) -> (b < ms_banks p)%nat) as HF.
  { intros x Hx. apply same_bank_ids_in in Hx; [|lia].
    unfold same_index in Hx. apply andb_true_iff in Hx as [_ Hx]. apply Nat.ltb_lt in Hx.
    rewrite <- W4. pose proof (Nat.div_mod x (ms_banksPerGroup p) ltac:(lia)).
    pose proof (Nat.mod_upper_bound x (ms_banksPerGroup p) ltac:(lia)). nia. }
  split; [auto|split; [|split; [auto|]]].
  - unfold same_index. rewrite Nat.eqb_refl. apply Nat.ltb_lt. apply Nat.div_lt_upper_bound; lia.
  - apply forallb_forall. intros x Hx. apply Nat.ltb_lt. auto.
Qed.

Lemma step_PRESB : cmd_type c = PRESB -> follows d'.
Proof.
  intros E. start E.
  destruct (ms_std p) eqn:Es; try discriminate.
  assert (addr c < ms_banks p)%nat as Hb by lia.
  destruct (same_facts Es Hb) as [W3 [HI [HF HF']]].
  destruct (ms_banksPerGroup p) as [|g] eqn:Eg; [lia|]. clear W2.
  eapply quiet_touch with (b0 := addr c); [exact Hd|cbn beta; rewrite len_rk, A, HF'; reflexivity|..]; auto.
  - apply (sf_fold (fun b r => h_pre now b r)). intros; apply sf_h_pre.
  - unfold footprint. rewrite E. auto.
  - intros RA. apply ract_pre_fold; auto. lia.
  - intros b k sb Hf Hs B. assert (is_stable sb = true) as C by (eapply addressed_spec; eauto).
    unfold footprint in Hf. rewrite E in Hf.
    assert (b_cmd p c b k = b_pre now k) as -> by (unfold b_cmd; rewrite E, Hf, Hts; reflexivity).
    apply close_one; auto.
Qed.

Lemma step_REFSB : cmd_type c = REFSB -> follows d'.
Proof.
  intros E. start E.
  destruct (ms_std p) eqn:Es; try discriminate.
  assert (addr c < ms_banks p)%nat as Hb by lia.
  destruct (same_facts Es Hb) as [W3 [HI [HF HF']]].
  destruct (ms_banksPerGroup p) as [|g] eqn:Eg; [lia|]. clear W2.
  eapply (refresh_loop K_refSameBank (ms_tRFCsb p) (same_bank_ids p (addr c))) with (b0 := addr c);
    [exact Hd|cbn beta; rewrite len_rk, A, HF'; reflexivity|..]; auto; try discriminate.
  - lia.
  - apply same_bank_ids_in; auto. lia.
  - apply same_bank_ids_nodup. lia.
  - intros b _. unfold footprint. rewrite E. apply same_bank_ids_in. lia.
  - intros b k Hf. unfold footprint in Hf. rewrite E in Hf. unfold b_cmd. rewrite E, Hf, Hts. reflexivity.
Qed.

Lemma step_REFB : cmd_type c = REFB -> follows d'.
Proof.
  intros E. start E.
  assert (dispatch p c = A_rank (fun r : rank => if Nat.ltb (addr c) (length (rk_banks r)) then Ok (h_refPerBank p (addr c) now r) else Asserts)) as Hd'.
  { destruct (ms_std p); try discriminate; exact Hd. }
  assert (addr c < ms_banks p)%nat as Hb by lia.
  eapply (refresh_loop K_refPerBank (ms_tRFCPB p) [addr c]) with (b0 := addr c);
    [exact Hd'|cbn beta; rewrite len_rk, A; reflexivity|..]; auto; try discriminate.
  - lia.
  - left; auto.
  - constructor; [cbn; tauto|constructor].
  - intros b [<-|[]]; auto.
  - intros b _. unfold footprint. rewrite E. cbn. rewrite Nat.eqb_eq. intuition.
  - intros b k Hf. unfold footprint in Hf. rewrite E in Hf. unfold b_cmd. rewrite E, Hf, Hts. reflexivity.
Qed.

Lemma two_once (x y b : nat) : x <> y -> Nat.eqb x b || Nat.eqb y b = true ->
  (b2n (Nat.eqb x b) + b2n (Nat.eqb y b) = 1)%nat.
Proof. intros Hxy Ho. destruct (Nat.eqb_spec x b), (Nat.eqb_spec y b); cbn in *; auto; try congruence. Qed.

Lemma step_REFP2B : cmd_type c = REFP2B -> follows d'.
Proof.
  intros E. start E.
  destruct (ms_std p) eqn:Es; try discriminate. destruct (ms_m8b p); [discriminate|].
  set (b2 := Nat.modulo (addr c + ms_p2bOffset p) 16) in *.
  apply andb_true_iff in A as [A A3]. apply andb_true_iff in A as [A1 A2].
  assert (addr c <> b2) as A3' by (intros X; rewrite X, Nat.eqb_refl in A3; discriminate).
  eapply (refresh_loop K_refPerTwoBanks (ms_tRFCPB p) [addr c; b2]) with (b0 := addr c);
    [exact Hd|cbn beta; unfold forallb, p2b_second; fold b2; rewrite len_rk, A1, A2; reflexivity|..]; auto; try discriminate.
  - lia.
  - left; auto.
  - constructor; [cbn; intuition|constructor; [cbn; tauto|constructor]].
  - intros b [<-|[<-|[]]]; apply Nat.ltb_lt; auto.
  - intros b _. unfold footprint. rewrite E. fold b2. cbn. rewrite orb_true_iff, !Nat.eqb_eq. intuition.
  - intros b k Hf. unfold footprint in Hf. rewrite E in Hf. fold b2 in Hf. unfold b_cmd. rewrite E, Hts.
    apply iter_one. unfold counted, is_cmd. rewrite E. fold b2. apply two_once; auto.
Qed.

Lemma step_REFDB : cmd_type c = REFDB -> follows d'.
Proof.
  intros E. start E.
  destruct (ms_std p) eqn:Es; try discriminate.
  set (b2 := N.to_nat (cmd_dbank c)) in *.
  apply andb_true_iff in A as [A A3]. apply andb_true_iff in A as [A1 A2].
  assert (addr c <> b2) as A3' by (intros X; rewrite X, Nat.eqb_refl in A3; discriminate).
  eapply (refresh_loop K_refDualBanks (ms_tRFCDB p) [addr c; b2]) with (b0 := addr c);
    [exact Hd|cbn beta; rewrite len_rk, A1, A2; reflexivity|..]; auto; try discriminate.
  - lia.
  - left; auto.
  - constructor; [cbn; intuition|constructor; [cbn; tauto|constructor]].
  - intros b [<-|[<-|[]]]; apply Nat.ltb_lt; auto.
  - intros b _. unfold footprint. rewrite E. fold b2. cbn. rewrite orb_true_iff, !Nat.eqb_eq. intuition.
  - intros b k Hf. unfold footprint in Hf. rewrite E in Hf. fold b2 in Hf. unfold b_cmd. rewrite E, Hts.
    apply iter_one. unfold counted, is_cmd. rewrite E. fold b2. apply two_once; auto.
Qed.

Lemma step_REFA : cmd_type c = REFA -> follows d'.
Proof.
  intros E. start E.
  eapply refAll_step; [|exact W1|exact Hd|reflexivity|exact H'|].
  - intros b. unfold footprint. rewrite E. reflexivity.
  - intros b k. unfold b_cmd. rewrite E, Hts. reflexivity.
Qed.

Lemma step_rw kd : (cmd_type c = RD /\ kd = K_reads) \/ (cmd_type c = WR /\ kd = K_writes) -> follows d'.
Proof.
  intros E.
  assert (dispatch p c = on_bank (addr c) (quiet (h_rw kd (addr c)))) as Hd.
  { unfold dispatch. destruct E as [[-> ->]|[-> ->]]; reflexivity. }
  assert (Nat.ltb (addr c) (ms_banks p) = true) as A'.
  { unfold well_addressed in A. destruct E as [[E _]|[E _]]; rewrite E in A; exact A. }
  assert (footprint p c = fun b => Nat.eqb (addr c) b) as F.
  { unfold footprint. destruct E as [[-> _]|[-> _]]; reflexivity. }
  assert (addressed p c is_open (dv_banks d) = true /\ d = d') as [H' <-].
  { unfold up_command in H. destruct E as [[E _]|[E _]]; rewrite E in H; apply guard_some in H; exact H. }
  clear H. unfold on_bank in Hd. assert (addr c < ms_banks p)%nat as Hb by (apply Nat.ltb_lt; auto).
  assert (with_banks (touch p c (fun x => x) (dv_banks d)) d = d) as <-.
  { destruct d as [bs m pd]. unfold with_banks. cbn [dv_banks dv_mode dv_pend]. f_equal. apply nth_error_ext. intros i.
    rewrite nth_error_touch. destruct (nth_error bs i); cbn; auto. destruct (footprint p c i); auto. }
  eapply quiet_touch with (b0 := addr c); [exact Hd|cbn beta; rewrite len_rk, A'; reflexivity|..]; auto.
  - repeat split.
  - rewrite F. apply Nat.eqb_refl.
  - unfold addressed in *. rewrite forallb_forall in *. intros x Hx.
    apply In_nth_error in Hx as [i Hi]. rewrite nth_error_mapi in Hi.
    destruct (nth_error (dv_banks d) i) as [sb|] eqn:Ei; [|discriminate]. cbn in Hi. injection Hi as <-.
    specialize (H' (if footprint p c i then is_open sb else true)).
    destruct (footprint p c i) eqn:Ef; auto. unfold is_stable. rewrite H', orb_true_r; auto.
    apply (nth_error_In _ i). rewrite nth_error_mapi, Ei. cbn. rewrite Ef. reflexivity.
  - intros [R1 R2]. split; auto. cbn. rewrite existsb_upd_same by reflexivity. exact R1.
  - intros b k sb Hf Hs B. split; auto. rewrite F in Hf.
    assert (b_cmd p c b k = bk_bump kd k) as ->.
    { unfold b_cmd. destruct E as [[-> ->]|[-> ->]]; rewrite Hf; reflexivity. }
    eapply brel_mono; [|apply brel_bump; [| |exact B]]; [lia|..]; destruct E as [[_ ->]|[_ ->]]; discriminate.
Qed.

Lemma step_rwa kd off : (cmd_type c = RDA /\ kd = K_readAuto /\ off = ms_offRD p) \/
                        (cmd_type c = WRA /\ kd = K_writeAuto /\ off = ms_offWR p) -> follows d'.
Proof.
  intros E. pose proof (tmax_ge p) as T.
  assert (dispatch p c = on_bank (addr c) (h_rwAuto p kd off (addr c) now)) as Hd.
  { unfold dispatch. rewrite Hts. destruct E as [[-> [-> ->]]|[-> [-> ->]]]; reflexivity. }
  assert (Nat.ltb (addr c) (ms_banks p) = true) as A'.
  { unfold well_addressed in A. destruct E as [[E _]|[E _]]; rewrite E in A; exact A. }
  assert (footprint p c = fun b => Nat.eqb (addr c) b) as F.
  { unfold footprint. destruct E as [[-> _]|[-> _]]; reflexivity. }
  assert (addressed p c is_open (dv_banks d) = true /\
          with_banks (touch p c (autoclose_bank p now off) (dv_banks d)) d = d') as [H' <-].
  { unfold up_command in H. rewrite Hts in H. destruct E as [[E [_ ->]]|[E [_ ->]]]; rewrite E in H; apply guard_some in H; exact H. }
  clear H. unfold on_bank in Hd. assert (addr c < ms_banks p)%nat as Hb by (apply Nat.ltb_lt; auto).
  destruct (one_bank (addr c) Hb) as [k0 [sb0 [Hk0 [Hs0 B0]]]].
  assert (footprint p c (addr c) = true) as F0 by (rewrite F; apply Nat.eqb_refl).
  assert (is_open sb0 = true) as O0 by (eapply addressed_spec; eauto).
  assert (rk_endRefresh rk <= now) as HE.
  { eapply end_passed; eauto. unfold is_stable. rewrite O0. apply orb_true_r. }
  assert (off <= tmax p) as Hoff by (destruct E as [[_ [_ ->]]|[_ [_ ->]]]; lia).
  assert (autopre_time p off now k0 =
          N.max (match sb_since sb0 with Some s => s + ms_tRAS p | None => 0 end) (now + off)) as HT.
  { unfold autopre_time. rewrite (u64_add_small now off) by lia. f_equal.
    destruct B0 as [Ba Bi Be Bs Bo Bp Br Bn]. unfold is_open in O0. destruct (sb_state sb0); try discriminate.
    destruct (sb_since sb0) as [s|]; [|congruence]. destruct Bs as [B1 [_ B3]].
    unfold iv_get_start. rewrite B1. apply u64_add_small. lia. }
  match type of Hd with _ = A_rank ?g => set (f := g) in Hd end.
  destruct (touch_step p c now n rk q d K f (rk_upd_bank (addr c) (bk_bump kd) rk)
              [(autopre_time p off now k0, RI_pre (addr c))] (autoclose_bank p now off)) as [E1 [E2 E3]];
    [exact Hts|exact Ht|exact R|exact Q|exact M|exact P|exact Hd|..].
  - unfold f. rewrite len_rk, A'. unfold h_rwAuto. unfold bnk in Hk0. rewrite Hk0. reflexivity.
  - repeat split.
  - cbn. rewrite existsb_upd_same by reflexivity. apply (rel_ract _ _ _ _ _ _ R M HE).
  - cbn. intros G. lia.
  - intros b k sb Hf Hb' Hs B. assert (is_open sb = true) as O1 by (eapply addressed_spec; eauto).
    rewrite F in Hf.
    assert (b_cmd p c b k = bk_bump kd k) as ->.
    { unfold b_cmd. destruct E as [[-> [-> _]]|[-> [-> _]]]; rewrite Hf; reflexivity. }
    apply brel_bump; [destruct E as [[_ [-> _]]|[_ [-> _]]]; discriminate..|].
    apply brel_autoclose; auto.
  - rewrite <- (autoclose_evs p c now off _ (addr c) sb0); auto.
    + unfold sb_ev. cbn [autoclose_bank sb_state]. rewrite HT. reflexivity.
    + intros j Hj. rewrite F in Hj. apply Nat.eqb_eq in Hj. auto.
  - eexists (_, _). split; [exact E1|]. auto.
Qed.

End Up.
End Commands.

(* ---- commands that change the mode of the rank ---- *)

Lemma Rel_mono p now n n' rk d K : n <= n' -> Rel p now n rk d K -> Rel p now n' rk d K.
Proof.
  intros H R. destruct R as [rl_len0 rl_bank0 rl_mem0 rl_act0 rl_pda0 rl_pdp0 rl_sref0 rl_dsm0 rl_end0 rl_ok0 rl_bsum0 rl_sum0].
  constructor; auto. intros b k sb Hk Hs. eapply brel_mono; eauto.
Qed.

Lemma Rel_pend p now n rk d d' K : Rel p now n rk d K -> dv_banks d' = dv_banks d -> dv_mode d' = dv_mode d ->
  dev_ok (iv_get_start (rk_pda rk)) d' -> Rel p now n rk d' K.
Proof.
  intros R HB HM HO.
  destruct R as [rl_len0 rl_bank0 rl_mem0 rl_act0 rl_pda0 rl_pdp0 rl_sref0 rl_dsm0 rl_end0 rl_ok0 rl_bsum0 rl_sum0].
  constructor; unfold rank_acts, mode_is in *; rewrite ?HB, ?HM; auto.
Qed.

Lemma pend_step p c now n rk q d K f x e m :
  Rel p now n rk d K -> qrel now q d -> dv_pend d = None ->
  dispatch p c = A_rank f -> f rk = Ok (rk, [(x, e)]) -> now <= x ->
  rank_ev (with_pend x m d) = [(x, e)] ->
  (forall b sb ev, nth_error (dv_banks d) b = Some sb -> In ev (sb_ev b sb) -> fst ev <= x) ->
  dev_ok (iv_get_start (rk_pda rk)) (with_pend x m d) ->
  follows p c now n rk q K (with_pend x m d).
Proof.
  intros R Q P Hd Hf Hx He Hq HO. exists (rk, q_insert x e q). split; [|split].
  - unfold r_apply. rewrite Hd. cbn [fst snd]. rewrite Hf. reflexivity.
  - cbn [fst]. eapply Rel_mono; [|eapply Rel_pend; eauto]. lia.
  - destruct Q as [[qb [-> Hp]] Hs Hf2]. unfold rank_ev in Hs, Hf2 |- *. rewrite P in *. rewrite app_nil_r in *.
    cbn [snd]. rewrite q_insert_last.
    + constructor.
      * exists qb. rewrite He. split; auto.
      * rewrite <- q_insert_last; [apply q_insert_sorted; auto|].
        apply Forall_forall. intros ev Hev.
        apply (Permutation_in _ Hp), bank_evs_in in Hev as [b [sb [Hb Hsb]]].
        apply (Hq b sb); auto. cbn [Nat.add] in Hsb. rewrite Hsb. left; auto.
      * apply Forall_app. split; auto.
    + apply Forall_forall. intros ev Hev.
      apply (Permutation_in _ Hp), bank_evs_in in Hev as [b [sb [Hb Hsb]]].
      apply (Hq b sb); auto. cbn [Nat.add] in Hsb. rewrite Hsb. left; auto.
Qed.

(* All banks closed and no mode change under way: switch mode at once. *)
Lemma closed_mode_step p c now n rk rk' q d K f m :
  Rel p now n rk d K -> qrel now q d -> dv_pend d = None ->
  forallb is_closed (dv_banks d) = true ->
  dispatch p c = A_rank f -> f rk = Ok (rk', []) ->
  Rel p now n rk' (with_mode m d) K ->
  follows p c now n rk q K (with_mode m d).
Proof.
  intros R Q P Hc Hd Hf R'. exists (rk', q). split; [|split].
  - unfold r_apply. rewrite Hd. cbn [fst snd]. rewrite Hf. reflexivity.
  - eapply Rel_mono; [|exact R']. lia.
  - destruct Q as [[qb [-> Hp]] Hs Hf2]. unfold rank_ev in *. rewrite P in *. rewrite app_nil_r in *.
    constructor; auto. exists qb. unfold rank_ev. cbn [with_mode dv_pend dv_banks]. rewrite P, app_nil_r. auto.
Qed.

Lemma srefen_step p c now n rk q d K :
  well_formed p -> cmd_ts c = now -> now + tmax p < two64 -> n + 1 < two64 ->
  Rel p now n rk d K -> qrel now q d -> cmd_type c = SREFEN ->
  dv_pend d = None -> dv_mode d = Up -> addressed p c is_closed (dv_banks d) = true ->
  follows p c now n rk q K
    (with_pend (now + ms_tRFC p) SelfRef (with_banks (touch p c (refresh_bank now (now + ms_tRFC p)) (dv_banks d)) d)).
Proof.
  intros W Hts Ht Hn R Q E P M A. pose proof (tmax_ge p) as T.
  set (c' := mkCommand (cmd_ts c) REFA (cmd_bank c) (cmd_bankGroup c) (cmd_rank c) (cmd_row c) (cmd_column c)
               (cmd_dbank c) (cmd_data c) (cmd_sz_bits c)).
  assert (footprint p c' = footprint p c) as F by (unfold footprint; rewrite E; reflexivity).
  assert (forall g, touch p c' g (dv_banks d) = touch p c g (dv_banks d)) as TE
    by (intros g; unfold touch; rewrite F; reflexivity).
  assert (addressed p c' is_closed (dv_banks d) = true) as A' by (unfold addressed in *; rewrite F; exact A).
  set (d1 := with_banks (touch p c (refresh_bank now (now + ms_tRFC p)) (dv_banks d)) d).
  assert (follows p c' now n rk q K d1) as [st1 [E1 [R1 Q1]]].
  { eapply step_REFA; eauto. unfold up_command. cbn [cmd_type c' cmd_ts]. rewrite A', Hts. unfold guard, d1.
    rewrite TE. reflexivity. }
  unfold r_apply in E1. cbn [dispatch cmd_type c' on_rank cmd_ts fst snd] in E1. rewrite Hts in E1.
  destruct (h_refAll p now rk) as [rk1 evs1] eqn:Eh. injection E1 as <-. cbn [fst snd] in *.
  assert (forall b sb ev, nth_error (dv_banks d1) b = Some sb -> In ev (sb_ev b sb) -> fst ev <= now + ms_tRFC p) as Hle.
  { intros b sb ev Hb Hev. unfold d1 in Hb. cbn [with_banks dv_banks] in Hb. rewrite nth_error_touch in Hb.
    destruct (nth_error (dv_banks d) b) as [sb0|]; [|discriminate]. cbn in Hb. injection Hb as <-.
    unfold footprint in Hev. rewrite E in Hev. cbn in Hev. destruct Hev as [<-|[]]. cbn. lia. }
  assert (Forall (fun e => fst e <= now + ms_tRFC p) (r_enqueue evs1 q)) as HF.
  { destruct Q1 as [[qb [Eq Hp]] _ _]. unfold rank_ev in Eq. cbn [d1 with_banks dv_pend] in Eq. rewrite P, app_nil_r in Eq.
    rewrite Eq. apply Forall_forall. intros ev Hev.
    apply (Permutation_in _ Hp), bank_evs_in in Hev as [b [sb [Hb Hsb]]]. cbn [Nat.add] in Hsb.
    apply (Hle b sb); auto. rewrite Hsb. left; auto. }
  exists (rk1, r_enqueue evs1 q ++ [(now + ms_tRFC p, RI_sref)]). split; [|split]; cbn [fst snd].
  - unfold r_apply, dispatch. rewrite E, Hts. unfold on_rank, h_srefEntry. cbn [fst snd]. rewrite Eh.
    rewrite u64_add_small by lia. rewrite r_enqueue_app. cbn [r_enqueue fold_left fst snd].
    rewrite q_insert_last by exact HF. reflexivity.
  - eapply Rel_pend; [exact R1|reflexivity|reflexivity|].
    unfold dev_ok. cbn [with_pend with_banks d1 dv_mode dv_pend dv_banks]. rewrite M.
    apply forallb_nth. intros b sb Hb. rewrite nth_error_touch in Hb.
    destruct (nth_error (dv_banks d) b) as [sb0|]; [|discriminate]. cbn [option_map] in Hb.
    unfold footprint in Hb. rewrite E in Hb. injection Hb as <-. unfold closed_by. cbn. apply N.leb_refl.
  - destruct Q1 as [[qb [Eq Hp]] Hs Hf]. unfold rank_ev in Eq. cbn [d1 with_banks dv_pend] in Eq. rewrite P, app_nil_r in Eq.
    constructor.
    + exists qb. rewrite Eq. split; [reflexivity|exact Hp].
    + rewrite <- q_insert_last by exact HF. apply q_insert_sorted; auto.
    + apply Forall_app. split; auto. constructor; auto. cbn. lia.
Qed.

Lemma command_step p c now n rk q d d' K :
  well_formed p -> cmd_ts c = now -> now + tmax p < two64 -> n + 1 < two64 ->
  Rel p now n rk d K -> qrel now q d -> command p c d = Some d' -> follows p c now n rk q K d'.
Proof.
  intros W Hts Ht Hn R Q H. unfold command in H. rewrite Hts in H.
  destruct (in_standard p (cmd_type c)) eqn:S; [|discriminate].
  destruct (well_addressed p c) eqn:A; [|discriminate]. cbn [andb] in H.
  assert (forall x m e f,
    dv_pend d = None -> with_pend x m d = d' -> now <= x ->
    dispatch p c = A_rank f -> f rk = Ok (rk, [(x, e)]) ->
    rank_ev (with_pend x m d) = [(x, e)] ->
    (forall b sb ev, nth_error (dv_banks d) b = Some sb -> In ev (sb_ev b sb) -> fst ev <= x) ->
    dev_ok (iv_get_start (rk_pda rk)) (with_pend x m d) -> follows p c now n rk q K d') as GP.
  { intros x m e f P <- Hx Hd Hf He Hq HO. eapply pend_step; eauto. }
  assert (forall P0 : Prop, (dv_pend d = None -> dv_mode d = Up -> up_command p c d = Some d' -> P0) ->
    (match dv_pend d, dv_mode d with None, Up => up_command p c d | _, _ => None end = Some d') -> P0) as GU.
  { intros P0 HP HX. destruct (dv_pend d); [discriminate|]. destruct (dv_mode d); try discriminate. auto. }
  pose proof (ready_eq _ _ _ _ _ _ Ht R) as RE.
  assert (now <= N.max now (ready p (dv_banks d))) as HX by lia.
  pose proof (rl_ok _ _ _ _ _ _ R) as O.
  destruct (cmd_type c) eqn:E; try discriminate.
  - (* NOP *) injection H as <-. exists (rk, q). split; [|split; [eapply Rel_mono; [|exact R]; lia|exact Q]].
    unfold r_apply, dispatch. rewrite E. unfold in_standard in S. destruct (ms_std p); try discriminate; reflexivity.
  - revert H. apply GU. intros P M H. rewrite <- E in S. eapply step_rw; eauto.
  - revert H. apply GU. intros P M H. rewrite <- E in S. eapply step_rw; eauto.
  - revert H. apply GU. intros P M H. rewrite <- E in S. eapply step_rwa; eauto.
  - revert H. apply GU. intros P M H. rewrite <- E in S. eapply step_rwa; eauto.
  - revert H. apply GU. intros P M H. rewrite <- E in S. eapply step_ACT; eauto.
  - revert H. apply GU. intros P M H. rewrite <- E in S. eapply step_PRE; eauto.
  - revert H. apply GU. intros P M H. rewrite <- E in S. eapply step_REFB; eauto.
  - revert H. apply GU. intros P M H. rewrite <- E in S. eapply step_REFP2B; eauto.
  - revert H. apply GU. intros P M H. rewrite <- E in S. eapply step_REFDB; eauto.
  - revert H. apply GU. intros P M H. rewrite <- E in S. eapply step_PRESB; eauto.
  - revert H. apply GU. intros P M H. rewrite <- E in S. eapply step_REFSB; eauto.
  - revert H. apply GU. intros P M H. rewrite <- E in S. eapply step_PREA; eauto.
  - revert H. apply GU. intros P M H. rewrite <- E in S. eapply step_REFA; eauto.
  - (* PDEA *) revert H. apply GU. intros P M H. unfold up_command in H. rewrite E, Hts in H.
    apply guard_some in H as [H1 H2]. apply andb_true_iff in H1 as [H1 H3].
    eapply GP; eauto.
    + unfold dispatch. rewrite E, Hts. reflexivity.
    + unfold h_pdaEntry. cbn beta. rewrite RE. reflexivity.
    + unfold rank_ev. cbn. reflexivity.
    + intros b sb ev Hb Hev. rewrite forallb_nth in H3. specialize (H3 b sb Hb).
      unfold is_open, closed_before in H3. unfold sb_ev in Hev.
      destruct (sb_state sb); cbn in *; try tauto; destruct Hev as [<-|[]]; cbn [fst]; lia.
    + unfold dev_ok. cbn. rewrite M. auto.
  - (* PDEP *) revert H. apply GU. intros P M H. unfold up_command in H. rewrite E, Hts in H.
    apply guard_some in H as [H3 H2].
    eapply GP; eauto.
    + unfold dispatch. rewrite E, Hts. reflexivity.
    + unfold h_pdpEntry. cbn beta. rewrite RE. reflexivity.
    + unfold rank_ev. cbn. reflexivity.
    + intros b sb ev Hb Hev. rewrite forallb_nth in H3. specialize (H3 b sb Hb).
      unfold closed_by in H3. unfold sb_ev in Hev.
      destruct (sb_state sb); cbn in *; try tauto; destruct Hev as [<-|[]]; cbn [fst]; lia.
    + unfold dev_ok. cbn. rewrite M. auto.
  - (* PDXA *)
    destruct (dv_pend d) eqn:P; [discriminate|]. destruct (dv_mode d) eqn:M; try discriminate.
    { unfold up_command in H. rewrite E in H. discriminate. }
    injection H as H. unfold dev_ok in O. rewrite M, P in O. destruct O as [O1 O2].
    eapply GP; eauto.
    + unfold dispatch. rewrite E, Hts. reflexivity.
    + unfold h_pdaExit. cbn beta. rewrite RE. pose proof (rl_mem _ _ _ _ _ _ R) as Z. rewrite M in Z. cbn in Z.
      rewrite Z. destruct (ms_std p); reflexivity.
    + unfold rank_ev. cbn. rewrite M. reflexivity.
    + intros b sb ev Hb Hev. rewrite forallb_nth in O2. specialize (O2 b sb Hb).
      unfold is_open, is_closed in O2. unfold sb_ev in Hev. destruct (sb_state sb); cbn in *; try tauto; discriminate.
    + unfold dev_ok. cbn. rewrite M. auto.
  - (* PDXP *)
    destruct (dv_pend d) eqn:P; [discriminate|]. destruct (dv_mode d) eqn:M; try discriminate.
    { unfold up_command in H. rewrite E in H. discriminate. }
    injection H as H. unfold dev_ok in O. rewrite M, P in O.
    eapply GP; eauto.
    + unfold dispatch. rewrite E, Hts. reflexivity.
    + unfold h_pdpExit. cbn beta. rewrite RE. reflexivity.
    + unfold rank_ev. cbn. rewrite M. reflexivity.
    + intros b sb ev Hb Hev. rewrite forallb_nth in O. specialize (O b sb Hb).
      unfold is_closed in O. unfold sb_ev in Hev. destruct (sb_state sb); cbn in *; try tauto; discriminate.
    + unfold dev_ok. cbn. rewrite M. auto.
  - (* SREFEN *) revert H. apply GU. intros P M H. unfold up_command in H. rewrite E, Hts in H.
    destruct (guard _ _) as [d1|] eqn:G in H; [|discriminate]. cbn in H. injection H as <-.
    apply guard_some in G as [G <-]. eapply srefen_step; eauto.
  - (* SREFEX *)
    destruct (dv_pend d) eqn:P; [discriminate|]. destruct (dv_mode d) eqn:M; try discriminate.
    { unfold up_command in H. rewrite E in H. discriminate. }
    injection H as <-. unfold dev_ok in O. rewrite M, P in O.
    pose proof (rl_mem _ _ _ _ _ _ R) as Z. rewrite M in Z. cbn in Z.
    assert (dispatch p c = A_rank (quiet_o (h_srefExit now))) as Hd by (unfold dispatch; rewrite E, Hts; reflexivity).
    eapply closed_mode_step; eauto.
    + unfold quiet_o, h_srefExit. rewrite Z. reflexivity.
    + pose proof R as [rl_len0 rl_bank0 rl_mem0 rl_act0 rl_pda0 rl_pdp0 rl_sref0 rl_dsm0 rl_end0 rl_ok0 rl_bsum0 rl_sum0].
      unfold mode_is in *. rewrite M in *. unfold rank_acts in rl_act0. rewrite (none_busy _ O) in rl_act0.
      eapply rank_event_closed; eauto; cbn; auto.
      * eapply ivrel_close; eauto. lia.
      * unfold dev_ok. cbn. rewrite P. exact I.
  - (* DSMEN *)
    destruct (dv_pend d) eqn:P; [discriminate|]. destruct (dv_mode d) eqn:M; try discriminate.
    { unfold up_command in H. rewrite E in H. discriminate. }
    injection H as <-. unfold dev_ok in O. rewrite M, P in O.
    pose proof (rl_mem _ _ _ _ _ _ R) as Z. rewrite M in Z. cbn in Z.
    assert (dispatch p c = A_rank (quiet_o (h_dsmEntry now))) as Hd.
    { unfold dispatch; rewrite E, Hts. unfold in_standard in S. destruct (ms_std p); try discriminate; reflexivity. }
    eapply closed_mode_step; eauto.
    + unfold quiet_o, h_dsmEntry. rewrite Z. reflexivity.
    + pose proof R as [rl_len0 rl_bank0 rl_mem0 rl_act0 rl_pda0 rl_pdp0 rl_sref0 rl_dsm0 rl_end0 rl_ok0 rl_bsum0 rl_sum0].
      unfold mode_is in *. rewrite M in *. unfold rank_acts in rl_act0. rewrite (none_busy _ O) in rl_act0.
      eapply rank_event_closed; eauto; cbn; auto.
      * apply ivrel_start. exact rl_dsm0.
      * unfold dev_ok. cbn. rewrite P. exact O.
  - (* DSMEX *)
    destruct (dv_pend d) eqn:P; [discriminate|]. destruct (dv_mode d) eqn:M; try discriminate.
    { unfold up_command in H. rewrite E in H. discriminate. }
    injection H as <-. unfold dev_ok in O. rewrite M, P in O.
    pose proof (rl_mem _ _ _ _ _ _ R) as Z. rewrite M in Z. cbn in Z.
    assert (dispatch p c = A_rank (quiet_o (h_dsmExit now))) as Hd.
    { unfold dispatch; rewrite E, Hts. unfold in_standard in S. destruct (ms_std p); try discriminate; reflexivity. }
    eapply closed_mode_step; eauto.
    + unfold quiet_o, h_dsmExit. rewrite Z. reflexivity.
    + pose proof R as [rl_len0 rl_bank0 rl_mem0 rl_act0 rl_pda0 rl_pdp0 rl_sref0 rl_dsm0 rl_end0 rl_ok0 rl_bsum0 rl_sum0].
      unfold mode_is in *. rewrite M in *. unfold rank_acts in rl_act0. rewrite (none_busy _ O) in rl_act0.
      eapply rank_event_closed; eauto; cbn; auto.
      * eapply ivrel_close; eauto. lia.
      * unfold dev_ok. cbn. rewrite P. exact O.
  - (* end of simulation *) injection H as <-. exists (rk, q). split; [|split; [eapply Rel_mono; [|exact R]; lia|exact Q]].
    unfold r_apply, dispatch. rewrite E. reflexivity.
Qed.
