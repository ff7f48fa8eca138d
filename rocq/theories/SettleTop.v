(* What is pending, how much of it there is, and what follows once nothing is. *)
From Coq Require Import ZArith NArith QArith List Bool Lia Arith Permutation.
From Verif Require Import Base Command CoreModel ListFacts QueueProofs CoreBasics HistorySpec CoreHistory CoreBounds GrowProofs SettleProofs.
From Verif Require Import DeviceSpec DeviceFacts RefineBase RefineRun RefineMain SettleSpec ExampleCores.
Import ListNotations.
Local Open Scope N_scope.

(* ---- counts after settling ---- *)

Lemma iv_later t t' i : t <= t' -> t' < two64 -> iv_wf t i -> iv_count_at t' i = after (t' - t) (iv_count_at t i) (iv_is_open i).
Proof.
  intros H Ht W. unfold after. destruct (iv_is_open i) eqn:E.
  - pose proof (iv_wf_weaken t t' i H W) as W'. unfold iv_is_open in E.
    destruct (iv_start i) as [s|] eqn:Es; [|discriminate]. destruct (iv_end i) eqn:Ee; [discriminate|].
    rewrite (iv_count_open t' i s), (iv_count_open t i s); auto; try lia.
    unfold iv_wf in W. rewrite Es, Ee in W. lia.
  - rewrite !iv_count_closed by exact E. lia.
Qed.

Section Settled.
  Variables (p : memspec) (cs : list Command) (T : N) (s : core).
  Hypothesis (Hn : nondecreasing 0 (map cmd_ts cs)) (Ho : no_overflow p (map cmd_ts cs)).
  Hypothesis (Hr : run_core p cs (core_new p) = Ok s).
  Hypothesis (Hf : final_time 0 (map cmd_ts cs) + tmax p <= T).

  Lemma settled_quiet t : GrowProofs.quiet T t s.
  Proof using Hn Ho Hr Hf.
    intros e He. pose proof (pending_window p cs s Hn Ho Hr) as W. rewrite Forall_forall in W. specialize (W e He). lia.
  Qed.

  Lemma settled_rank r c : T < two64 -> shown_rank (snd (window_stats p T s)) r = Some c ->
    exists runs, length runs = 5%nat /\ forall t, T <= t -> t < two64 ->
      exists c', shown_rank (snd (window_stats p t s)) r = Some c' /\ shown_counts c' = all_after (t - T) (shown_counts c) runs.
  Proof using Hn Ho Hr Hf.
    intros HT Hc. assert (final_time 0 (map cmd_ts cs) <= T) as HF by lia.
    destruct (grow_facts p cs T T s Hn Ho HF (N.le_refl T) HT Hr (settled_quiet T)) as (_ & _ & _ & D).
    unfold shown_rank, window_stats in Hc; cbn [snd st_rank] in Hc. rewrite nth_error_map in Hc.
    destruct (nth_error (co_ranks (process_queue p T s)) r) as [rk|] eqn:X; [|discriminate].
    cbn in Hc. injection Hc as <-. destruct (D rk (nth_error_In _ _ X)) as [Dk Wk].
    exists (map iv_is_open [rk_act rk; rk_pda rk; rk_pdp rk; rk_dsm rk; rk_sref rk]). split; [reflexivity|].
    intros t Ht Ht'.
    destruct (grow_facts p cs T t s Hn Ho HF Ht Ht' Hr (settled_quiet t)) as (_ & E & _ & _).
    unfold shown_rank, window_stats; cbn [snd st_rank]. rewrite E, nth_error_map, X. cbn [option_map].
    eexists. split; [reflexivity|].
    assert (rank_wf t rk) as Wk' by (destruct Wk; constructor; intros; eapply iv_wf_weaken; eauto).
    rewrite !shown_counts_rank; auto; try lia. destruct Wk. unfold raw_rank, all_after. cbn [map combine fst snd].
    do 4 (f_equal; [apply iv_later; auto|]). f_equal. apply iv_later; auto.
  Qed.

  Lemma settled_bank r b c : T < two64 -> (b < ms_banks p)%nat -> shown_bank p (snd (window_stats p T s)) r b = Some c ->
    exists runs, length runs = 5%nat /\ forall t, T <= t -> t < two64 ->
      exists c', shown_bank p (snd (window_stats p t s)) r b = Some c' /\ bs_counter c' = bs_counter c /\
        shown_counts (bs_cycles c') = all_after (t - T) (shown_counts (bs_cycles c)) runs.
  Proof using Hn Ho Hr Hf.
    intros HT Hb Hc. assert (final_time 0 (map cmd_ts cs) <= T) as HF by lia.
    destruct (grow_facts p cs T T s Hn Ho HF (N.le_refl T) HT Hr (settled_quiet T)) as (_ & _ & Z & D).
    pose proof (process_sizes p T s Z) as [_ Z1]. rewrite Forall_forall in Z1.
    unfold shown_bank, window_stats in Hc; cbn [snd st_bank] in Hc.
    rewrite nth_error_flat_map in Hc; [|intros x Hx; rewrite map_length; apply Z1; exact Hx|exact Hb].
    destruct (nth_error (co_ranks (process_queue p T s)) r) as [rk|] eqn:X; [|discriminate].
    rewrite nth_error_map in Hc. fold (bnk b rk) in Hc.
    destruct (bnk b rk) as [k|] eqn:Ek; [|discriminate].
    cbn [option_map] in Hc. injection Hc as <-. destruct (D rk (nth_error_In _ _ X)) as [Dk Wk].
    exists (map iv_is_open [bk_act k; rk_pda rk; rk_pdp rk; rk_dsm rk; rk_sref rk]). split; [reflexivity|].
    intros t Ht Ht'.
    destruct (grow_facts p cs T t s Hn Ho HF Ht Ht' Hr (settled_quiet t)) as (_ & E & _ & _).
    unfold shown_bank, window_stats; cbn [snd st_bank]. rewrite E.
    rewrite nth_error_flat_map; [|intros x Hx; rewrite map_length; apply Z1; exact Hx|exact Hb].
    rewrite X, nth_error_map. fold (bnk b rk). rewrite Ek. cbn [option_map].
    eexists. split; [reflexivity|]. split; [reflexivity|].
    assert (rank_wf t rk) as Wk' by (destruct Wk; constructor; intros; eapply iv_wf_weaken; eauto).
    rewrite !shown_counts_bank; auto; try lia. destruct Wk. unfold raw_bank, all_after. cbn [map combine fst snd].
    do 4 (f_equal; [apply iv_later; eauto|]). f_equal. apply iv_later; eauto.
  Qed.
End Settled.

(* ---- what is pending after a legal history ---- *)

Lemma bank_evs_times i bs : map fst (bank_evs i bs) =
  flat_map (fun b => match sb_state b with Closing c => [c] | Refreshing e => [e] | _ => [] end) bs.
Proof.
  revert i. induction bs as [|b bs IH]; intros i; cbn [bank_evs flat_map]; [reflexivity|].
  rewrite map_app, IH. f_equal. unfold sb_ev. destruct (sb_state b); reflexivity.
Qed.

Lemma rank_ev_times ps d : dev_ok ps d -> map fst (rank_ev d) = match dv_pend d with Some (x, _) => [x] | None => [] end.
Proof. unfold dev_ok, rank_ev. destruct (dv_mode d), (dv_pend d) as [[x []]|]; intros H; try reflexivity; contradiction. Qed.

Lemma rqueue_times r q : map fst (rqueue r q) = map fst (filter (fun e => Nat.eqb (fst (snd e)) r) q).
Proof. unfold rqueue. rewrite map_map. reflexivity. Qed.

Lemma device_now p r cs t d : nondecreasing 0 (map cmd_ts cs) -> final_time 0 (map cmd_ts cs) <= t ->
  run_device p (filter (to_rank r) cs) (device_new p) = Some d -> device_at p r cs t = Some (settle t d).
Proof.
  intros Hn Hf E. unfold device_at.
  rewrite (filter_ext_in' _ (to_rank r) cs); [rewrite E; reflexivity|].
  intros c Hc. assert (cmd_ts c <= t) as H by (pose proof (nondecreasing_le cs 0 c Hn Hc); lia).
  apply N.leb_le in H. rewrite H. apply andb_true_r.
Qed.

Lemma pending_exactly p cs t s r :
  well_formed p -> timely p cs t -> (r < ms_ranks p)%nat -> legal p r cs -> run_core p cs (core_new p) = Ok s ->
  exists d, device_at p r cs t = Some d /\
    Permutation (map fst (filter (fun e => Nat.eqb (fst (snd e)) r) (co_queue (fst (window_stats p t s))))) (waits d).
Proof.
  intros W T Hr L H. pose proof T as [T1 [T2 [T3 [T4 T5]]]].
  destruct (legal_sync p r cs t W T L) as [st [d [R1 [R2 S]]]].
  destruct (proj_run p r cs s Hr T1 H) as [a [st' [Pa [R1' A]]]].
  rewrite R1 in R1'. injection R1' as <-.
  pose proof (queue_sorted_reachable p cs s H) as Q.
  exists (settle t d). split; [eapply device_now; eauto|].
  pose proof (proj_process p t s r Q) as Pp. rewrite Pa in Pp. cbn [option_map] in Pp. rewrite (A t T3) in Pp.
  unfold proj in Pp. destruct (nth_error (co_ranks (process_queue p t s)) r) as [rk|]; [|discriminate].
  injection Pp as _ Pq. unfold window_stats; cbn [fst]. rewrite <- rqueue_times, Pq.
  destruct (ql_split _ _ _ (sy_q _ _ _ _ _ _ S)) as (qb & E & P). unfold r_drain in E. cbn [snd] in E. rewrite E, map_app.
  unfold waits. rewrite (rank_ev_times _ _ (rl_ok _ _ _ _ _ _ (sy_rel _ _ _ _ _ _ S))), <- (bank_evs_times 0).
  apply Permutation_app_tail. now apply Permutation_map.
Qed.

Lemma waits_length p r cs t d : device_at p r cs t = Some d -> (length (waits d) <= ms_banks p + 1)%nat.
Proof.
  intros D. rewrite device_at_dev in D. apply dev_len in D. unfold waits. rewrite app_length.
  assert (forall bs, (length (flat_map (fun b => match sb_state b with Closing c => [c] | Refreshing e => [e] | _ => [] end) bs) <= length bs)%nat) as H.
  { induction bs as [|b bs IH]; cbn; [lia|]. rewrite app_length. destruct (sb_state b); cbn; lia. }
  specialize (H (dv_banks d)). destruct (dv_pend d) as [[x m]|]; cbn; lia.
Qed.

(* Counting the entries of a queue rank by rank. *)
Lemma by_rank (q : list (N * (nat * ricmd))) n m : (forall e, In e q -> (fst (snd e) < n)%nat) ->
  (forall r, (r < n)%nat -> (length (filter (fun e => Nat.eqb (fst (snd e)) r) q) <= m)%nat) -> (length q <= n * m)%nat.
Proof.
  intros H1 H2.
  assert (filter (fun e => Nat.ltb (fst (snd e)) n) q = q) as E.
  { clear H2. induction q as [|e q IH]; cbn [filter]; [reflexivity|]. rewrite IH by (intros; apply H1; now right).
    specialize (H1 e (or_introl eq_refl)). apply Nat.ltb_lt in H1. rewrite H1. reflexivity. }
  rewrite <- E. clear E H1. induction n as [|k IH].
  - cut (filter (fun e : N * (nat * ricmd) => Nat.ltb (fst (snd e)) 0) q = []); [intros ->; cbn; lia|].
    clear. induction q; cbn; auto.
  - assert (length (filter (fun e : N * (nat * ricmd) => Nat.ltb (fst (snd e)) (S k)) q) =
            length (filter (fun e => Nat.eqb (fst (snd e)) k) q) + length (filter (fun e => Nat.ltb (fst (snd e)) k) q))%nat as ->.
    { clear. induction q as [|e q IH]; cbn [filter]; [reflexivity|].
      destruct (Nat.ltb_spec (fst (snd e)) (S k)), (Nat.eqb_spec (fst (snd e)) k), (Nat.ltb_spec (fst (snd e)) k); cbn [length]; lia. }
    specialize (H2 k ltac:(lia)) as H3. specialize (IH (fun r Hr => H2 r ltac:(lia))). lia.
Qed.

(* Entries name existing ranks. *)
Lemma queue_ranks p cs : forall s s', sizes_ok p s -> (forall e, In e (co_queue s) -> (fst (snd e) < ms_ranks p)%nat) ->
  run_core p cs s = Ok s' -> forall e, In e (co_queue s') -> (fst (snd e) < ms_ranks p)%nat.
Proof.
  induction cs as [|c cs IH]; intros s s' Z Q H; cbn in H; [injection H as <-; exact Q|].
  destruct (do_command p c s) as [s1|s1| |] eqn:E; try discriminate.
  apply (IH s1 s'); auto; [eapply do_command_sizes; eauto|].
  apply do_command_ok in E as [[_ ->]|[f [rk [rk' [evs [_ [En [_ ->]]]]]]]]; cbn [co_queue];
    rewrite process_eq; cbn [co_queue]; intros e He.
  - apply Q. rewrite <- (due_rest (cmd_ts c) (co_queue s)). apply in_or_app; auto.
  - apply enqueue_in in He as [[x [Hx ->]]|He].
    + cbn [fst snd]. destruct (process_sizes p (cmd_ts c) s Z) as [Z1 _].
      rewrite <- Z1. apply nth_error_Some. rewrite En. discriminate.
    + apply Q. rewrite <- (due_rest (cmd_ts c) (co_queue s)). apply in_or_app; auto.
Qed.

Lemma drained_length p cs t s :
  well_formed p -> timely p cs t -> legal_history p cs -> run_core p cs (core_new p) = Ok s ->
  (length (co_queue (process_queue p t s)) <= ms_ranks p * (ms_banks p + 1))%nat.
Proof.
  intros W T [_ L] H. apply by_rank.
  - intros e He. rewrite process_eq in He; cbn [co_queue] in He.
    eapply (queue_ranks p cs (core_new p) s); [apply core_new_sizes|intros ? []|exact H|].
    rewrite <- (due_rest t (co_queue s)). apply in_or_app; auto.
  - intros r Hr. destruct (pending_exactly p cs t s r W T Hr (L r Hr) H) as (d & D & P).
    apply Permutation_length in P. rewrite map_length in P. unfold window_stats in P; cbn [fst] in P. rewrite P. eapply waits_length; eauto.
Qed.

Lemma dispatch_events_count p c f r r' evs : well_formed p -> length (rk_banks r) = ms_banks p ->
  dispatch p c = A_rank f -> f r = Ok (r', evs) -> (length evs <= ms_banks p + 1)%nat.
Proof.
  intros [Wb W5] HL Hd Hf. revert Hd Hf.
  assert (length (snd (h_refAll p (cmd_ts c) r)) = ms_banks p) as HA.
  { destruct (ms_std p) eqn:Es; [rewrite h_refAll_ddr4 by auto|rewrite h_refAll_other by congruence..];
      cbn [snd]; rewrite map_length, seq_length; exact HL. }
  unfold dispatch, on_rank, on_bank, on_banks, CoreModel.quiet, quiet_o.
  destruct (cmd_type c) eqn:Et;
    repeat match goal with
           | |- context [match ms_std p with _ => _ end] => destruct (ms_std p) eqn:?
           | |- context [match ms_banksPerGroup p with _ => _ end] => destruct (ms_banksPerGroup p) eqn:?
           | |- context [if ms_m8b p then _ else _] => destruct (ms_m8b p)
           end;
    intros Hd; try discriminate; injection Hd as <-;
    repeat match goal with
           | |- (if ?b then _ else _) = _ -> _ => destruct b
           end; intros Hf; try discriminate.
  all: try (injection Hf as <- <-; cbn; lia).
  all: try (unfold h_rwAuto in Hf; destruct (nth_error (rk_banks r) _) as [k|]; injection Hf as <- <-; cbn; lia).
  all: try (unfold h_refSame, h_refPerBank, h_refTwoBanks, h_refDual in Hf;
            rewrite refresh_banks_eq in Hf;
            match type of Hf with Ok (?x, ?y) = _ => assert (evs = y) as -> by congruence end;
            rewrite map_length; try (cbn; lia)).
  all: try (unfold same_bank_ids; rewrite map_length, seq_length; destruct (W5 eq_refl); nia).
  all: unfold h_srefEntry in Hf.
  all: try (destruct (h_refAll p (cmd_ts c) r) as [r1 e1]; injection Hf as <- <-; cbn [snd] in HA;
            try rewrite app_length; cbn; lia).
  all: unfold h_srefExit, h_dsmEntry, h_dsmExit, h_pdaEntry, h_pdaExit, h_pdpEntry, h_pdpExit in Hf.
  all: destruct (ms_std p), (rk_memState r); try discriminate; injection Hf as <- <-; cbn; lia.
Qed.

Lemma enqueue_length r evs : forall q, length (enqueue r evs q) = (length evs + length q)%nat.
Proof.
  unfold enqueue. induction evs as [|e evs IH]; intros q; cbn; [reflexivity|]. rewrite IH.
  assert (forall q : list qentry, length (q_insert (fst e) (r, snd e) q) = S (length q)) as ->; [|lia].
  clear. induction q as [|[t x] q IH]; cbn; [reflexivity|]. destruct (fst e <? t); cbn; congruence.
Qed.

Lemma queue_length p cs t s :
  well_formed p -> timely p cs t -> legal_history p cs -> run_core p cs (core_new p) = Ok s ->
  (length (co_queue s) <= (ms_ranks p + 1) * (ms_banks p + 1))%nat.
Proof.
  intros W T L H. destruct cs as [|c cs _] using rev_ind; [cbn in H; injection H as <-; cbn; lia|].
  rewrite run_core_app in H. destruct (run_core p cs (core_new p)) as [s1|s1| |] eqn:E; try discriminate.
  pose proof (legal_history_cat p cs [c] L) as L1.
  assert (timely p cs (cmd_ts c)) as T1.
  { pose proof T as [T1 [T2 [T3 [T4 T5]]]]. apply nondecreasing_app in T1 as [T1 Hc].
    apply (timely_prefix p cs [c] t T); [exact Hc|]. rewrite final_time_app in T3. exact T3. }
  pose proof (drained_length p cs (cmd_ts c) s1 W T1 L1 E) as D.
  pose proof (run_core_sizes _ _ _ _ (core_new_sizes p) E) as Z.
  destruct (process_sizes p (cmd_ts c) s1 Z) as [_ Z1].
  apply do_command_ok in H as [[_ ->]|[f [rk [rk' [evs [Ed [En [Ef ->]]]]]]]]; cbn [co_queue]; [lia|].
  rewrite enqueue_length. rewrite Forall_forall in Z1.
  pose proof (dispatch_events_count p c f rk rk' evs W (Z1 rk (nth_error_In _ _ En)) Ed Ef). lia.
Qed.

(* ---- without the rules there is no bound ---- *)

Definition again : Command := at_ 0 RDA 0 1.
Lemma again_step s : sizes_ok ex_ddr4 s -> Forall (fun e => 0 < fst e) (co_queue s) ->
  exists s', do_command ex_ddr4 again s = Ok s' /\ sizes_ok ex_ddr4 s' /\ Forall (fun e => 0 < fst e) (co_queue s') /\
    length (co_queue s') = S (length (co_queue s)).
Proof.
  intros Z F.
  assert (process_queue ex_ddr4 0 s = s) as E.
  { destruct s as [rs q l]. cbn [co_queue] in F. unfold process_queue; cbn [co_queue co_ranks co_last]. destruct q as [|[t x] q]; [reflexivity|].
    inversion F as [|? ? F1 _]; subst. cbn [fst] in F1. unfold ich_process. destruct (N.leb_spec t 0); [lia|reflexivity]. }
  assert (exists s', do_command ex_ddr4 again s = Ok s' /\ Forall (fun e => 0 < fst e) (co_queue s') /\ length (co_queue s') = S (length (co_queue s))) as (s' & H & G & L).
  { unfold do_command. change (cmd_ts again) with 0. rewrite E. destruct Z as [Z1 Z2].
    change (dispatch ex_ddr4 again) with (on_bank 1 (h_rwAuto ex_ddr4 K_readAuto 8 1 0)). unfold on_bank. cbv beta iota zeta.
    cbn [co_ranks co_queue co_last]. change (N.to_nat (cmd_rank again)) with 0%nat.
    destruct (co_ranks s) as [|rk rs] eqn:R; [discriminate Z1|]. cbn [nth_error].
    inversion Z2 as [|? ? Zb _]; subst. unfold nbk in Zb. change (ms_banks ex_ddr4) with 4%nat in Zb. rewrite Zb. change (Nat.ltb 1 4) with true. cbv iota.
    unfold h_rwAuto. destruct (nth_error (rk_banks rk) 1) as [k|] eqn:K; [|apply nth_error_None in K; lia].
    eexists. split; [reflexivity|]. cbn [co_queue]. split.
    - apply Forall_forall. intros e He. apply enqueue_in in He as [[x [[<-|[]] ->]]|He].
      + cbn [fst]. unfold autopre_time. change (u64_add 0 8) with 8. lia.
      + rewrite Forall_forall in F. auto.
    - rewrite enqueue_length. reflexivity. }
  exists s'. split; [exact H|]. split; [exact (do_command_sizes _ _ _ _ Z H)|]. split; assumption.
Qed.

Lemma pile_up n : forall s, sizes_ok ex_ddr4 s -> Forall (fun e => 0 < fst e) (co_queue s) ->
  exists s', run_core ex_ddr4 (repeat again n) s = Ok s' /\ length (co_queue s') = (n + length (co_queue s))%nat.
Proof.
  induction n as [|n IH]; intros s Z F; cbn [repeat run_core]; [exists s; auto|].
  destruct (again_step s Z F) as (s1 & -> & Z1 & F1 & L1).
  destruct (IH s1 Z1 F1) as (s' & R & L). exists s'. split; [exact R|]. rewrite L, L1. lia.
Qed.

Theorem no_bound : forall n, exists p cs s, well_formed p /\ nondecreasing 0 (map cmd_ts cs) /\ no_overflow p (map cmd_ts cs) /\
  run_core p cs (core_new p) = Ok s /\ (n < length (co_queue s))%nat.
Proof.
  intros n. destruct (pile_up (S n) (core_new ex_ddr4) (core_new_sizes _) (Forall_nil _)) as (s & R & L).
  exists ex_ddr4, (repeat again (S n)), s. split; [split; [cbn; lia|discriminate]|].
  split; [|split; [|split; [exact R|rewrite L; lia]]].
  - generalize (S n). intros m. induction m; cbn; [exact Logic.I|]. split; [lia|exact IHm].
  - apply Forall_forall. intros t Ht. apply in_map_iff in Ht as (c & <- & Hc). apply repeat_spec in Hc as ->. vm_compute. reflexivity.
Qed.
