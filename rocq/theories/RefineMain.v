(* The statistics of a core over a legal history are the cycle counts of the
   reference machine. *)
From Coq Require Import ZArith NArith List Bool Lia ZifyBool ZifyNat ZifyN Sorting.Sorted Permutation.
From Verif Require Import Base Command CoreModel ListFacts QueueProofs CoreBasics HistorySpec CoreHistory CoreBounds DeviceSpec RefineBase RefineSteps RefineRun RefineCmd.
Import ListNotations.
Local Open Scope N_scope.

(* ---- counts of the reference machine for commands to one rank ---- *)

Definition dev (p : memspec) (cs : list Command) (n : N) : option device :=
  option_map (settle n) (run_device p (filter (fun c => cmd_ts c <=? n) cs) (device_new p)).

Definition cw (p : memspec) (cs : list Command) (t : N) (P : device -> bool) : N :=
  count_below (fun n => match dev p cs n with Some d => P d | None => false end) (N.to_nat t).

Definition Kof (p : memspec) (cs : list Command) (t : N) : cnts :=
  mkCnts (fun b => cw p cs t (bank_acts b)) (fun b => cw p cs t (bank_idles b))
    (cw p cs t rank_acts) (cw p cs t rank_idles) (cw p cs t (mode_is ActPd)) (cw p cs t (mode_is PrePd))
    (cw p cs t (mode_is SelfRef)) (cw p cs t (mode_is DeepSleep)).

Lemma Rel_ext p now n rk d K K' :
  (forall b, n_bank K b = n_bank K' b) -> (forall b, n_bpre K b = n_bpre K' b) ->
  n_act K = n_act K' -> n_pre K = n_pre K' -> n_pda K = n_pda K' -> n_pdp K = n_pdp K' ->
  n_sref K = n_sref K' -> n_dsm K = n_dsm K' ->
  Rel p now n rk d K -> Rel p now n rk d K'.
Proof.
  intros H1 H2 H3 H4 H5 H6 H7 H8 R.
  destruct R as [rl_len0 rl_bank0 rl_mem0 rl_act0 rl_pda0 rl_pdp0 rl_sref0 rl_dsm0 rl_end0 rl_ok0 rl_bsum0 rl_sum0].
  constructor; rewrite <- ?H3, <- ?H4, <- ?H5, <- ?H6, <- ?H7, <- ?H8; auto.
  - intros b k sb Hk Hs. rewrite <- H1. auto.
  - intros b Hb. rewrite <- H1, <- H2. auto.
Qed.

Lemma cw_succ p cs t d P : dev p cs t = Some d -> cw p cs (t + 1) P = cw p cs t P + b2N (P d).
Proof.
  intros H. unfold cw. replace (N.to_nat (t + 1)) with (S (N.to_nat t)) by lia. cbn [count_below].
  rewrite N2Nat.id, H. reflexivity.
Qed.

Lemma count_below_ext P Q n : (forall m, (m < n)%nat -> P (N.of_nat m) = Q (N.of_nat m)) ->
  count_below P n = count_below Q n.
Proof.
  induction n as [|n IH]; intros H; cbn; auto. rewrite H by lia. rewrite IH; auto.
Qed.

Lemma Sync_K p now n st d K K' : Sync p now n st d K ->
  (Rel p now n (fst st) d K -> Rel p now n (fst st) d K') -> Sync p now n st d K'.
Proof. intros [S1 S2 S3] H. constructor; auto. Qed.

(* Time passes, no commands. *)
Lemma advance p cs t d0 n st m :
  n < two64 -> (forall c, In c cs -> cmd_ts c <= t) ->
  run_device p cs (device_new p) = Some d0 ->
  Sync p t n (r_drain p t st) (settle t d0) (Kof p cs t) ->
  t + N.of_nat m < two64 ->
  Sync p (t + N.of_nat m) n (r_drain p (t + N.of_nat m) st) (settle (t + N.of_nat m) d0) (Kof p cs (t + N.of_nat m)).
Proof.
  intros Hn Hc Hr HS. induction m as [|m IH]; intros Hm.
  - cbn. rewrite N.add_0_r. exact HS.
  - specialize (IH ltac:(lia)). set (u := t + N.of_nat m) in *.
    replace (t + N.of_nat (S m)) with (u + 1) in * by lia.
    pose proof (sync_tick p u n _ _ _ Hm Hn IH) as Z.
    rewrite r_drain_drain in Z by lia. rewrite settle_settle in Z by lia.
    assert (dev p cs u = Some (settle u d0)) as Hd.
    { unfold dev. rewrite filter_all; [rewrite Hr; reflexivity|].
      intros c Hin. specialize (Hc c Hin). lia. }
    eapply Sync_K; [exact Z|]. apply Rel_ext; intros; cbn [tickK Kof n_bank n_bpre n_act n_pre n_pda n_pdp n_sref n_dsm];
      symmetry; apply cw_succ; auto.
Qed.

Lemma sync_start p : well_formed p -> Sync p 0 0 (rank_new (ms_banks p), []) (device_new p) (Kof p [] 0).
Proof.
  intros W. constructor; cbn [fst snd]; [|constructor; [|constructor|constructor]|constructor].
  - constructor; cbn [rank_new device_new dv_banks dv_mode rk_banks rk_memState rk_act rk_pda rk_pdp rk_sref rk_dsm Kof n_bank n_bpre n_act n_pre n_pda n_pdp n_sref n_dsm]; auto.
    + rewrite !repeat_length. auto.
    + unfold bnk; cbn. intros b k sb Hk Hs. unfold device_new in Hs; cbn [dv_banks] in Hs. rewrite nth_error_repeat in Hk; rewrite nth_error_repeat in Hs.
      destruct (b <? ms_banks p)%nat; try discriminate. injection Hk as <-. injection Hs as <-.
      constructor; cbn; auto; try discriminate; try lia. apply ivrel_new.
    + eapply ivrel_ext; [apply ivrel_new| |reflexivity].
      unfold rank_acts, mode_is. cbn. rewrite andb_true_r. symmetry.
      induction (ms_banks p); cbn; auto.
    + apply ivrel_new.
    + apply ivrel_new.
    + apply ivrel_new.
    + apply ivrel_new.
    + cbn. lia.
    + exact I.
  - exists []. split; auto. cbn. rewrite bank_evs_all_stable; auto.
    intros j sb Hj. unfold device_new in Hj; cbn [dv_banks] in Hj. rewrite nth_error_repeat in Hj. destruct (j <? ms_banks p)%nat; [|discriminate].
    injection Hj as <-. reflexivity.
Qed.

Lemma final_time_app from a c : final_time from (map cmd_ts (a ++ [c])) = cmd_ts c.
Proof. unfold final_time. rewrite map_app, fold_left_app. reflexivity. Qed.

Lemma nondecreasing_app from a c : nondecreasing from (map cmd_ts (a ++ [c])) <->
  nondecreasing from (map cmd_ts a) /\ final_time from (map cmd_ts a) <= cmd_ts c.
Proof.
  revert from; induction a as [|x a IH]; intros from; cbn.
  - tauto.
  - rewrite IH. unfold final_time. cbn. tauto.
Qed.

Lemma nondecreasing_le cs from c : nondecreasing from (map cmd_ts cs) -> In c cs ->
  cmd_ts c <= final_time from (map cmd_ts cs).
Proof.
  induction cs as [|x cs IH] using rev_ind; [intros _ []|].
  rewrite nondecreasing_app, final_time_app. intros [H1 H2] Hin. apply in_app_or in Hin as [Hin|[<-|[]]]; [|lia].
  specialize (IH H1 Hin). lia.
Qed.

Lemma r_run_app p a c st : r_run p (a ++ [c]) st =
  match r_run p a st with Ok st' => r_command p c st' | o => o end.
Proof.
  revert st; induction a as [|x a IH]; intros st; cbn.
  - destruct (r_command p c st); auto.
  - destruct (r_command p x st); auto.
Qed.

Lemma run_device_app p a c d : run_device p (a ++ [c]) d =
  match run_device p a d with Some d' => command p c (settle (cmd_ts c) d') | None => None end.
Proof.
  revert d; induction a as [|x a IH]; intros d; cbn.
  - destruct (command p c (settle (cmd_ts c) d)); auto.
  - destruct (command p x (settle (cmd_ts x) d)); auto.
Qed.

Lemma filter_ext_in' {A} (f g : A -> bool) l : (forall x, In x l -> f x = g x) -> filter f l = filter g l.
Proof. apply filter_ext_in. Qed.

Lemma dev_app p a c n : n < cmd_ts c -> dev p (a ++ [c]) n = dev p a n.
Proof.
  intros H. unfold dev. rewrite filter_app. cbn. destruct (N.leb_spec (cmd_ts c) n); [lia|].
  rewrite app_nil_r. reflexivity.
Qed.

Lemma cw_app p a c t P : t <= cmd_ts c -> cw p (a ++ [c]) t P = cw p a t P.
Proof.
  intros H. unfold cw. apply count_below_ext. intros m Hm. rewrite dev_app by lia. reflexivity.
Qed.

(* The commands of one rank. *)
Lemma rank_sync p cs d0 t :
  well_formed p -> nondecreasing 0 (map cmd_ts cs) -> no_overflow p (map cmd_ts cs) ->
  N.of_nat (length cs) < two64 -> run_device p cs (device_new p) = Some d0 ->
  final_time 0 (map cmd_ts cs) <= t -> t < two64 ->
  exists st, r_run p cs (rank_new (ms_banks p), []) = Ok st /\
    Sync p t (N.of_nat (length cs)) (r_drain p t st) (settle t d0) (Kof p cs t).
Proof.
  intros W. revert d0 t. induction cs as [|c cs IH] using rev_ind; intros d0 t Hs Ho Hl Hr Hf Ht.
  - cbn in Hr. injection Hr as <-. exists (rank_new (ms_banks p), []). split; [reflexivity|].
    replace t with (0 + N.of_nat (N.to_nat t)) by lia.
    eapply advance; cbn [length N.of_nat].
    + reflexivity.
    + intros c [].
    + reflexivity.
    + pose proof (sync_start p W) as S0.
      assert (settle 0 (device_new p) = device_new p) as ->.
      { eapply settle_fix; [apply S0|apply S0|apply S0]. }
      exact S0.
    + lia.
  - apply nondecreasing_app in Hs as [Hs Hc]. rewrite final_time_app in Hf.
    unfold no_overflow in Ho. rewrite map_app in Ho. apply Forall_app in Ho as [Ho Hoc].
    inversion Hoc as [|? ? Hov _]; subst. rewrite app_length in Hl |- *. cbn [length] in *.
    rewrite run_device_app in Hr. destruct (run_device p cs (device_new p)) as [d1|] eqn:E1; [|discriminate].
    destruct (IH d1 (cmd_ts c)) as [st [Hst HS]]; auto; try lia.
    destruct HS as [S1 S2 S3].
    edestruct (command_step p c (cmd_ts c) (N.of_nat (length cs))) as [st' [A1 [A2 A3]]]; eauto; try lia.
    rewrite <- surjective_pairing in A1.
    assert (r_run p (cs ++ [c]) (rank_new (ms_banks p), []) = Ok st') as Hrun.
    { rewrite r_run_app, Hst. unfold r_command. exact A1. }
    exists st'. split; auto.
    replace t with (cmd_ts c + N.of_nat (N.to_nat (t - cmd_ts c))) by lia.
    apply advance; try lia.
    + intros x Hx. apply in_app_or in Hx as [Hx|[<-|[]]]; [|lia].
      pose proof (nondecreasing_le cs 0 x Hs Hx). lia.
    + rewrite run_device_app, E1. exact Hr.
    + replace (N.of_nat (length cs + 1)) with (N.of_nat (length cs) + 1) by lia.
      destruct (drain_rel p (cmd_ts c) (N.of_nat (length cs) + 1) (snd st') (fst st') d0 (Kof p cs (cmd_ts c)))
        as [D1 [D2 D3]]; auto; try lia.
      rewrite <- surjective_pairing in D1, D2, D3.
      eapply Sync_K; [constructor; [exact D1|exact D2|exact D3]|].
      apply Rel_ext; intros; cbn [Kof n_bank n_bpre n_act n_pre n_pda n_pdp n_sref n_dsm];
        symmetry; apply cw_app; lia.
Qed.

(* ---- from one rank to the core ---- *)

Lemma run_core_app p a c s : run_core p (a ++ [c]) s =
  match run_core p a s with Ok s' => do_command p c s' | o => o end.
Proof.
  revert s; induction a as [|x a IH]; intros s; cbn.
  - destruct (do_command p c s); auto.
  - destruct (do_command p x s); auto.
Qed.

Lemma filter_app1 {A} (f : A -> bool) l x : filter f (l ++ [x]) = if f x then filter f l ++ [x] else filter f l.
Proof. rewrite filter_app. cbn. destruct (f x); auto. rewrite app_nil_r; auto. Qed.

Lemma filter_times f cs : nondecreasing 0 (map cmd_ts cs) ->
  nondecreasing 0 (map cmd_ts (filter f cs)) /\
  final_time 0 (map cmd_ts (filter f cs)) <= final_time 0 (map cmd_ts cs).
Proof.
  induction cs as [|c cs IH] using rev_ind; [cbn; auto; lia|].
  intros H. apply nondecreasing_app in H as [H1 H2]. rewrite final_time_app. destruct (IH H1) as [I1 I2].
  rewrite filter_app1. destruct (f c).
  - rewrite nondecreasing_app, final_time_app. split; [split|]; auto; lia.
  - split; auto. lia.
Qed.

Lemma filter_overflow p f cs : no_overflow p (map cmd_ts cs) -> no_overflow p (map cmd_ts (filter f cs)).
Proof.
  unfold no_overflow. rewrite !Forall_map. intros H. apply Forall_filter. exact H.
Qed.

Lemma filter_length f (cs : list Command) : (length (filter f cs) <= length cs)%nat.
Proof. induction cs as [|c cs IH]; cbn; auto. destruct (f c); cbn; lia. Qed.

Lemma proj_new p r : (r < ms_ranks p)%nat -> proj r (core_new p) = Some (rank_new (ms_banks p), []).
Proof.
  intros H. unfold proj; cbn. rewrite nth_error_repeat.
  destruct (Nat.ltb_spec r (ms_ranks p)); [reflexivity|lia].
Qed.

Lemma proj_run p r cs s : (r < ms_ranks p)%nat -> nondecreasing 0 (map cmd_ts cs) ->
  run_core p cs (core_new p) = Ok s ->
  exists a st, proj r s = Some a /\ r_run p (filter (to_rank r) cs) (rank_new (ms_banks p), []) = Ok st /\
    r_agree p (final_time 0 (map cmd_ts cs)) a st.
Proof.
  intros Hr. revert s. induction cs as [|c cs IH] using rev_ind; intros s Hn H.
  - cbn in H. injection H as <-. rewrite proj_new by auto. do 2 eexists. split; [reflexivity|].
    split; [reflexivity|]. intros t _; reflexivity.
  - apply nondecreasing_app in Hn as [Hn Hc]. rewrite run_core_app in H.
    destruct (run_core p cs (core_new p)) as [s1|s1| |] eqn:E; try discriminate.
    destruct (IH s1 Hn eq_refl) as [a [st [Pa [Hst A]]]].
    pose proof (queue_sorted_reachable p cs s1 E) as Q1.
    rewrite filter_app1, final_time_app. destruct (to_rank r c) eqn:Er; unfold to_rank in Er.
    + apply Nat.eqb_eq in Er.
      destruct (proj_command_same p c s1 s a r Q1 Er Pa H) as [a' [Ha' Pa']].
      exists a', a'. split; [exact Pa'|]. split; [|intros t _; reflexivity].
      rewrite r_run_app, Hst. rewrite <- (r_agree_command p c _ a st Hc A). exact Ha'.
    + apply Nat.eqb_neq in Er.
      pose proof (proj_command_other p c s1 s r Q1 Er H) as Pa'. rewrite Pa in Pa'. cbn in Pa'.
      exists (r_drain p (cmd_ts c) a), st. split; [exact Pa'|]. split; [exact Hst|].
      intros t Ht. rewrite r_drain_drain by exact Ht. apply A. lia.
Qed.

Lemma device_at_dev p r cs n : device_at p r cs n = dev p (filter (to_rank r) cs) n.
Proof.
  unfold device_at, dev. do 2 f_equal.
  induction cs as [|c cs IH]; cbn; auto. destruct (to_rank r c); cbn; [|exact IH].
  destruct (cmd_ts c <=? n); [f_equal|]; exact IH.
Qed.

Lemma cycles_where_cw p r cs t P : cycles_where p r cs t P = cw p (filter (to_rank r) cs) t P.
Proof. unfold cycles_where, cw. apply count_below_ext. intros m _. rewrite device_at_dev. reflexivity. Qed.

(* The whole connection for one rank. *)
Lemma legal_sync p r cs t : well_formed p -> timely p cs t -> legal p r cs ->
  exists st d, r_run p (filter (to_rank r) cs) (rank_new (ms_banks p), []) = Ok st /\
    run_device p (filter (to_rank r) cs) (device_new p) = Some d /\
    Sync p t (N.of_nat (length (filter (to_rank r) cs))) (r_drain p t st) (settle t d)
         (Kof p (filter (to_rank r) cs) t).
Proof.
  intros W [T1 [T2 [T3 [T4 T5]]]] L. unfold legal in L.
  destruct (run_device p (filter (to_rank r) cs) (device_new p)) as [d|] eqn:E; [|congruence].
  destruct (filter_times (to_rank r) cs T1) as [F1 F2].
  pose proof (filter_length (to_rank r) cs) as FL.
  destruct (rank_sync p (filter (to_rank r) cs) d t W F1 (filter_overflow p _ cs T2) ltac:(lia) E ltac:(lia) T4)
    as [st [S1 S2]].
  exists st, d. auto.
Qed.

(* No deep sleep outside LPDDR5. *)
Lemma no_dsm_step p c d d' : ms_std p <> LPDDR5 -> command p c d = Some d' ->
  dv_mode d <> DeepSleep /\ (forall x, dv_pend d <> Some (x, DeepSleep)) ->
  dv_mode d' <> DeepSleep /\ (forall x, dv_pend d' <> Some (x, DeepSleep)).
Proof.
  intros Hs H [H1 H2]. unfold command in H.
  destruct (in_standard p (cmd_type c)) eqn:S; [|discriminate].
  destruct (well_addressed p c); [|discriminate]. cbn [andb] in H.
  assert (forall d1, dv_pend d = None -> up_command p c d = Some d1 ->
     dv_mode d1 <> DeepSleep /\ (forall x, dv_pend d1 <> Some (x, DeepSleep))) as G.
  { intros d1 P HU. unfold up_command in HU.
    destruct (cmd_type c); try discriminate;
      repeat match type of HU with
      | option_map _ _ = Some _ => destruct (guard _ _) eqn:Z in HU; [|discriminate]; cbn in HU; injection HU as <-;
                                   apply guard_some in Z as [_ <-]
      | guard _ _ = Some _ => apply guard_some in HU as [_ <-]
      end; cbn [with_banks with_pend dv_mode dv_pend]; split; auto; intros; rewrite ?P; congruence. }
  unfold in_standard in S.
  destruct (cmd_type c); try discriminate;
    try (injection H as <-; auto; fail);
    destruct (dv_pend d) eqn:P; try discriminate; destruct (dv_mode d) eqn:M; try discriminate;
    try (apply (G d'); auto; fail);
    try (injection H as <-; cbn [with_pend with_mode dv_mode dv_pend]; rewrite ?M, ?P; split; congruence).
  all: destruct (ms_std p); try discriminate; congruence.
Qed.

Lemma no_dsm_run p cs d : ms_std p <> LPDDR5 -> run_device p cs (device_new p) = Some d ->
  dv_mode d <> DeepSleep /\ (forall x, dv_pend d <> Some (x, DeepSleep)).
Proof.
  intros Hs. revert d. induction cs as [|c cs IH] using rev_ind; intros d H.
  - cbn in H. injection H as <-. cbn. split; [discriminate|]. intros; discriminate.
  - rewrite run_device_app in H. destruct (run_device p cs (device_new p)) as [d1|]; [|discriminate].
    destruct (IH d1 eq_refl) as [I1 I2].
    eapply no_dsm_step; eauto. unfold settle.
    destruct (dv_pend d1) as [[x m]|] eqn:P.
    + destruct (x <=? cmd_ts c); cbn; split; auto; try discriminate.
      intros ->. apply (I2 x). auto.
    + cbn. split; [exact I1|intros; discriminate].
Qed.

Lemma count_below_zero P n : (forall m, P m = false) -> count_below P n = 0.
Proof. intros H. induction n as [|n IH]; cbn; auto. rewrite H, IH. reflexivity. Qed.

Lemma no_dsm_count p cs t : ms_std p <> LPDDR5 -> cw p cs t (mode_is DeepSleep) = 0.
Proof.
  intros Hs. unfold cw. apply count_below_zero. intros m. unfold dev.
  destruct (run_device p (filter (fun c => cmd_ts c <=? m) cs) (device_new p)) as [d|] eqn:E; cbn; auto.
  destruct (no_dsm_run p _ d Hs E) as [H1 H2]. unfold mode_is, settle.
  destruct (dv_pend d) as [[x m']|] eqn:P.
  - destruct (x <=? m); cbn.
    + destruct m'; auto. exfalso. apply (H2 x); auto.
    + destruct (dv_mode d); auto; congruence.
  - cbn. destruct (dv_mode d); auto; congruence.
Qed.

Lemma u64_add4 a b c d : a + b + c + d < two64 -> u64_add (u64_add (u64_add a b) c) d = a + b + c + d.
Proof.
  intros H. rewrite (u64_add_small a b) by lia. rewrite (u64_add_small (a + b) c) by lia.
  apply u64_add_small. lia.
Qed.

(* Reading the statistics off the relation. *)
Lemma rel_counts p t n rk d cs : t < two64 -> Rel p t n rk d (Kof p cs t) ->
  rank_window p t rk = mkCycles (cw p cs t rank_acts) (cw p cs t rank_idles) (cw p cs t (mode_is ActPd))
    (cw p cs t (mode_is PrePd)) (cw p cs t (mode_is SelfRef)) (cw p cs t (mode_is DeepSleep)) /\
  (forall b k, bnk b rk = Some k ->
    bs_cycles (bank_window p t rk k) = mkCycles (cw p cs t (bank_acts b)) (cw p cs t (bank_idles b))
      (cw p cs t (mode_is ActPd)) (cw p cs t (mode_is PrePd)) (cw p cs t (mode_is SelfRef)) (cw p cs t (mode_is DeepSleep))).
Proof.
  intros Ht R.
  destruct R as [rl_len0 rl_bank0 rl_mem0 rl_act0 rl_pda0 rl_pdp0 rl_sref0 rl_dsm0 rl_end0 rl_ok0 rl_bsum0 rl_sum0].
  cbn [Kof n_bank n_bpre n_act n_pre n_pda n_pdp n_sref n_dsm] in *.
  destruct rl_act0 as [_ [_ C1]], rl_pda0 as [_ [_ C2]], rl_pdp0 as [_ [_ C3]], rl_sref0 as [_ [_ C4]], rl_dsm0 as [_ [_ C5]].
  assert (forall a x, a + x + cw p cs t (mode_is ActPd) + cw p cs t (mode_is PrePd) + cw p cs t (mode_is SelfRef) + cw p cs t (mode_is DeepSleep) = t ->
     pre_cycles t a rk = x) as HP.
  { intros a x HX. unfold pre_cycles. rewrite C2, C3, C4. rewrite u64_add4 by lia. rewrite u64_sub_le by lia. lia. }
  assert (cw p cs t (mode_is SelfRef) + cw p cs t (mode_is DeepSleep) < two64) as HB by lia.
  assert (u64_sub (iv_count_at t (rk_sref rk)) (iv_count_at t (rk_dsm rk)) = cw p cs t (mode_is SelfRef)) as HS.
  { rewrite C4, C5, u64_sub_le by lia. lia. }
  assert (forall std, ms_std p = std -> std <> LPDDR5 -> iv_count_at t (rk_sref rk) = cw p cs t (mode_is SelfRef) /\ iv_count_at t (rk_dsm rk) = 0) as HD.
  { intros std E N5. rewrite C4, C5, (no_dsm_count p cs t) by congruence. lia. }
  split.
  - unfold rank_window. rewrite C1, C2, C3. f_equal.
    + apply HP. lia.
    + unfold rank_sref. destruct (ms_std p) eqn:E; auto; apply (HD _ eq_refl); discriminate.
    + unfold rank_dsm. rewrite <- C5. destruct (ms_std p) eqn:E; auto; symmetry; apply (HD _ eq_refl); discriminate.
  - intros b k Hk. destruct rl_len0 as [L1 L2].
    assert (b < ms_banks p)%nat as Hb by (unfold bnk in Hk; apply nth_error_some_lt in Hk; lia).
    destruct (nth_error_lt (dv_banks d) b ltac:(lia)) as [sb Hsb].
    destruct (rl_bank0 b k sb Hk Hsb) as [_ [_ [_ C6]] _ _ _ _ _ _].
    cbn [bank_window bs_cycles]. rewrite C6, C2, C3. f_equal.
    + apply HP. apply (rl_bsum0 b Hb).
    + unfold bank_sref. destruct (ms_std p) eqn:E; auto; apply (HD _ eq_refl); discriminate.
    + unfold bank_dsm. rewrite <- C5. destruct (ms_std p) eqn:E; auto; symmetry; apply (HD _ eq_refl); discriminate.
Qed.

Theorem stats_are_cycle_counts p cs s r t :
  well_formed p -> timely p cs t -> (r < ms_ranks p)%nat -> legal p r cs ->
  run_core p cs (core_new p) = Ok s ->
  shown_rank (snd (window_stats p t s)) r = Some (spec_rank p r cs t) /\
  forall b, (b < ms_banks p)%nat ->
    option_map bs_cycles (shown_bank p (snd (window_stats p t s)) r b) = Some (spec_bank p r b cs t).
Proof.
  intros W T Hr L H. pose proof T as [T1 [T2 [T3 [T4 T5]]]].
  destruct (legal_sync p r cs t W T L) as [st [d [R1 [R2 S]]]].
  destruct (proj_run p r cs s Hr T1 H) as [a [st' [Pa [R1' A]]]].
  rewrite R1 in R1'. injection R1' as <-.
  pose proof (queue_sorted_reachable p cs s H) as Q.
  pose proof (run_core_sizes _ _ _ _ (core_new_sizes p) H) as Z.
  destruct (rel_counts p t _ _ _ _ T4 (sy_rel _ _ _ _ _ _ S)) as [C1 C2].
  split.
  - rewrite shown_rank_proj by auto. rewrite Pa. cbn [option_map]. rewrite (A t T3), C1.
    unfold spec_rank. rewrite !cycles_where_cw. reflexivity.
  - intros b Hb. rewrite shown_bank_proj by auto. rewrite Pa, (A t T3). cbv zeta.
    destruct (rl_len _ _ _ _ _ _ (sy_rel _ _ _ _ _ _ S)) as [L1 _].
    destruct (nth_error_lt (rk_banks (fst (r_drain p t st))) b ltac:(lia)) as [k Hk].
    rewrite Hk. cbn [option_map]. rewrite (C2 b k Hk). unfold spec_bank. rewrite !cycles_where_cw. reflexivity.
Qed.

(* Counts of disjoint situations add up. *)
Lemma legal_sums p r cs t : well_formed p -> timely p cs t -> legal p r cs ->
  let count := cycles_where p r cs t in
  count rank_acts + count rank_idles + count (mode_is ActPd) + count (mode_is PrePd)
    + count (mode_is SelfRef) + count (mode_is DeepSleep) = t /\
  forall b, (b < ms_banks p)%nat ->
  count (bank_acts b) + count (bank_idles b) + count (mode_is ActPd) + count (mode_is PrePd)
    + count (mode_is SelfRef) + count (mode_is DeepSleep) = t.
Proof.
  intros W T L. cbv zeta. destruct (legal_sync p r cs t W T L) as [st [d [R1 [R2 S]]]].
  destruct (sy_rel _ _ _ _ _ _ S) as [rl_len0 rl_bank0 rl_mem0 rl_act0 rl_pda0 rl_pdp0 rl_sref0 rl_dsm0 rl_end0 rl_ok0 rl_bsum0 rl_sum0].
  split.
  - rewrite !cycles_where_cw. exact rl_sum0.
  - intros b Hb. rewrite !cycles_where_cw. exact (rl_bsum0 b Hb).
Qed.

(* ---- legal histories are accepted ---- *)

Lemma legal_prefix p r cs c : legal p r (cs ++ [c]) -> legal p r cs.
Proof.
  unfold legal. rewrite filter_app1. destruct (to_rank r c); auto.
  rewrite run_device_app. destruct (run_device p (filter (to_rank r) cs) (device_new p)); congruence.
Qed.

Theorem legal_accepted p cs t :
  well_formed p -> timely p cs t ->
  Forall (fun c => (N.to_nat (cmd_rank c) < ms_ranks p)%nat) cs ->
  (forall r, (r < ms_ranks p)%nat -> legal p r cs) ->
  exists s, run_core p cs (core_new p) = Ok s.
Proof.
  intros W [T1 [T2 [T3 [T4 T5]]]] HR HL. clear T3 T4.
  induction cs as [|c cs IH] using rev_ind; [exists (core_new p); reflexivity|].
  apply nondecreasing_app in T1 as [T1 Hc].
  pose proof T2 as T2'. unfold no_overflow in T2. rewrite map_app in T2. apply Forall_app in T2 as [T2 Hoc].
  inversion Hoc as [|? ? Hov _]; subst. rewrite app_length in T5. cbn in T5.
  apply Forall_app in HR as [HR Hrc]. inversion Hrc as [|? ? Hrk _]; subst.
  destruct IH as [s Hs]; auto; try lia.
  { intros r Hr. eapply legal_prefix; eauto. }
  rewrite run_core_app, Hs. set (r := N.to_nat (cmd_rank c)) in *.
  assert (timely p (cs ++ [c]) (cmd_ts c)) as TC.
  { split; [apply nondecreasing_app; auto|]. split; [exact T2'|]. split; [rewrite final_time_app; lia|].
    split; [lia|]. rewrite app_length; cbn; lia. }
  destruct (legal_sync p r (cs ++ [c]) (cmd_ts c) W TC (HL r Hrk)) as [st [d [R1 _]]].
  destruct (proj_run p r cs s Hrk T1 Hs) as [a [st1 [Pa [R2 A]]]].
  rewrite filter_app1 in R1. assert (to_rank r c = true) as Er by apply Nat.eqb_refl. rewrite Er in R1.
  rewrite r_run_app, R2 in R1. rewrite <- (r_agree_command p c _ a st1 Hc A) in R1.
  destruct (do_command_from_proj p c s a st r (queue_sorted_reachable p cs s Hs) eq_refl Pa R1) as [s' [H' _]].
  exists s'. exact H'.
Qed.
