(* Self-refresh, deep sleep and active power-down seen through the statistics. *)
From Coq Require Import ZArith NArith List Bool Lia ZifyBool ZifyNat ZifyN.
From Verif Require Import Base Command CoreModel ListFacts QueueProofs CoreBasics HistorySpec CoreHistory DeviceSpec RefineBase RefineSteps RefineRun RefineCmd RefineMain DeviceFacts.
Import ListNotations.
Local Open Scope N_scope.

(* A history split at a command of rank r, seen by that rank. *)
Lemma split_times p a c mid T : timely p (a ++ c :: mid) T ->
  timely p a (cmd_ts c) /\ cmd_ts c <= T /\ nondecreasing (cmd_ts c) (map cmd_ts mid) /\
  (forall x, In x a -> cmd_ts x <= cmd_ts c) /\ (forall x, In x mid -> cmd_ts c <= cmd_ts x).
Proof.
  intros HT. pose proof HT as [H1 [H2 [H3 [H4 H5]]]].
  apply nondecreasing_cat in H1 as [H1 H1']. cbn in H1'. destruct H1' as [H6 H7].
  rewrite final_time_cat in H3. unfold final_time in H3 at 1. cbn in H3. fold (final_time (cmd_ts c) (map cmd_ts mid)) in H3.
  destruct (nondecreasing_ge _ _ H7) as [G1 G2].
  split; [eapply timely_prefix; eauto; lia|]. split; [lia|]. split; auto. split.
  - intros x Hx. pose proof (nondecreasing_le a 0 x H1 Hx). lia.
  - intros x Hx. apply G2; auto.
Qed.

Lemma fold_deep r mid n s : fold_left (fun s c => deep_step c s) (filter (fun c => cmd_ts c <=? n) (filter (to_rank r) mid)) s =
  fold_left (fun s c => if to_rank r c && (cmd_ts c <=? n)
                        then match cmd_type c with DSMEN => true | DSMEX => false | _ => s end
                        else s) mid s.
Proof.
  revert s. induction mid as [|c mid IH]; intros s; cbn; auto.
  destruct (to_rank r c); cbn; auto. destruct (cmd_ts c <=? n); cbn; auto.
Qed.

Lemma dev_after p a c mid r n d :
  to_rank r c = true -> (forall x, In x a -> cmd_ts x <= cmd_ts c) -> cmd_ts c <= n ->
  run_device p (filter (to_rank r) (a ++ [c])) (device_new p) = Some d ->
  dev p (filter (to_rank r) (a ++ c :: mid)) n =
    option_map (settle n) (run_device p (filter (fun c => cmd_ts c <=? n) (filter (to_rank r) mid)) d).
Proof.
  intros Hr Ha Hn HR. unfold dev. rewrite filter_app in *. cbn [filter] in *. rewrite Hr in *.
  rewrite (filter_app (fun c => cmd_ts c <=? n)). cbn [filter]. destruct (N.leb_spec (cmd_ts c) n); [|lia].
  rewrite filter_all; [|intros x Hx; apply filter_In in Hx as [Hx _]; specialize (Ha x Hx); lia].
  match goal with |- context [?x ++ c :: ?y] => change (x ++ c :: y) with (x ++ [c] ++ y) end.
  rewrite app_assoc, run_device_cat, HR. reflexivity.
Qed.

Lemma legal_run p r cs : legal p r cs -> exists d, run_device p (filter (to_rank r) cs) (device_new p) = Some d.
Proof. unfold legal. destruct (run_device p (filter (to_rank r) cs) (device_new p)); [eauto|congruence]. Qed.

(* Running up to some time succeeds if running everything does. *)
Lemma filter_prefix n l : forall from, nondecreasing from (map cmd_ts l) ->
  exists z, l = filter (fun c => cmd_ts c <=? n) l ++ z /\ (forall c, In c z -> n < cmd_ts c).
Proof.
  induction l as [|c l IH]; intros from H; cbn.
  - exists []. split; auto. intros c [].
  - destruct H as [H1 H2]. destruct (N.leb_spec (cmd_ts c) n).
    + destruct (IH _ H2) as [z [Hz Hz']]. exists z. split; auto. cbn. congruence.
    + exists (c :: l). rewrite filter_none.
      * split; auto. intros x [<-|Hx]; auto. destruct (nondecreasing_ge _ _ H2) as [_ G]. specialize (G x Hx). lia.
      * intros x Hx. destruct (nondecreasing_ge _ _ H2) as [_ G]. specialize (G x Hx). lia.
Qed.

Lemma filter_nondecreasing f l : forall from, nondecreasing from (map cmd_ts l) ->
  nondecreasing from (map cmd_ts (filter f l)).
Proof.
  induction l as [|c l IH]; intros from H; cbn; auto. destruct H as [H1 H2].
  destruct (f c); cbn; [split; auto|]. apply IH. destruct l; cbn in *; auto. destruct H2. split; auto. lia.
Qed.

Lemma sref_cycles p r a en mid T :
  timely p (a ++ en :: mid) T -> legal p r (a ++ en :: mid) ->
  cmd_type en = SREFEN -> to_rank r en = true ->
  (forall c, In c mid -> to_rank r c = true -> cmd_type c <> SREFEX) ->
  forall n, cmd_ts en <= n ->
  exists d, dev p (filter (to_rank r) (a ++ en :: mid)) n = Some d /\
            sref_set (cmd_ts en + ms_tRFC p) n (in_deep_sleep r mid n) d.
Proof.
  intros HT HL HK Hr Hx n Hn.
  destruct (split_times _ _ _ _ _ HT) as [T1 [T2 [T3 [T4 T5]]]].
  destruct (legal_run _ _ _ HL) as [dF HF].
  assert (legal p r (a ++ [en])) as HL1 by (apply (legal_cat p r (a ++ [en]) mid); rewrite <- app_assoc; exact HL).
  destruct (legal_run _ _ _ HL1) as [d1 H1].
  rewrite (dev_after p a en mid r n d1 Hr T4 Hn H1).
  assert (run_device p (filter (to_rank r) mid) d1 = Some dF) as HM.
  { change (a ++ en :: mid) with (a ++ [en] ++ mid) in HF. rewrite app_assoc, filter_app, run_device_cat, H1 in HF. exact HF. }
  pose proof (filter_nondecreasing (to_rank r) mid _ T3) as N1.
  destruct (filter_prefix n _ _ N1) as [z [Hz _]].
  rewrite Hz, run_device_cat in HM.
  destruct (run_device p (filter (fun c => cmd_ts c <=? n) (filter (to_rank r) mid)) d1) as [d2|] eqn:E; [|discriminate].
  exists (settle n d2). split; [reflexivity|].
  rewrite filter_app in H1. cbn [filter] in H1. rewrite Hr, run_device_app in H1.
  destruct (run_device p (filter (to_rank r) a) (device_new p)) as [d0|]; [|discriminate].
  pose proof (sref_enter p en _ _ HK H1) as I1.
  pose proof (filter_nondecreasing (fun c => cmd_ts c <=? n) _ _ N1) as N2.
  assert (sref_inv (cmd_ts en + ms_tRFC p) (final_time (cmd_ts en) (map cmd_ts (filter (fun c => cmd_ts c <=? n) (filter (to_rank r) mid))))
     (fold_left (fun s c => deep_step c s) (filter (fun c => cmd_ts c <=? n) (filter (to_rank r) mid)) false) d2) as I2.
  { eapply sref_run; eauto. intros c Hc. apply filter_In in Hc as [Hc _]. apply filter_In in Hc as [Hc Hc']. auto. }
  rewrite fold_deep in I2. eapply sref_settle; [exact I2|].
  destruct (nondecreasing_ge _ _ N2) as [G1 G2].
  set (l := filter (fun c => cmd_ts c <=? n) (filter (to_rank r) mid)) in *.
  assert (Forall (fun c => cmd_ts c <= n) l) as FL.
  { apply Forall_forall. intros c Hc. unfold l in Hc. apply filter_In in Hc as [_ Hc]. lia. }
  clear - FL Hn. revert Hn. generalize (cmd_ts en) as f. induction l as [|c l IH]; intros f Hf; [exact Hf|].
  inversion FL; subst. unfold final_time; cbn. apply IH; auto.
Qed.

(* How the six shown numbers of a rank and of a bank grow over a stay in
   self-refresh. *)
Definition sref_growth (p : memspec) (t T deep : N) (v0 v : cycles) : Prop :=
  cy_act v = cy_act v0 + N.min (ms_tRFC p) (T - t) /\
  cy_sref v + cy_dsm v = cy_sref v0 + cy_dsm v0 + (T - (t + ms_tRFC p)) /\
  cy_dsm v = cy_dsm v0 + deep /\
  cy_pre v = cy_pre v0 /\ cy_pda v = cy_pda v0 /\ cy_pdp v = cy_pdp v0.

Theorem sref_accounting p r a en mid T :
  well_formed p -> timely p (a ++ en :: mid) T -> legal_history p (a ++ en :: mid) ->
  (r < ms_ranks p)%nat -> cmd_type en = SREFEN -> to_rank r en = true ->
  (forall c, In c mid -> to_rank r c = true -> cmd_type c <> SREFEX) ->
  let deep := count_below (fun n => in_deep_sleep r mid (cmd_ts en + n)) (N.to_nat (T - cmd_ts en)) in
  (exists v0 v, rank_view p a (cmd_ts en) r = Some v0 /\ rank_view p (a ++ en :: mid) T r = Some v /\
     sref_growth p (cmd_ts en) T deep v0 v) /\
  (forall b, (b < ms_banks p)%nat ->
   exists v0 v, bank_view p a (cmd_ts en) r b = Some v0 /\ bank_view p (a ++ en :: mid) T r b = Some v /\
     sref_growth p (cmd_ts en) T deep v0 v).
Proof.
  intros W HT HL Hr HK Hre Hx. cbv zeta.
  pose proof (legal_history_cat p a (en :: mid) HL) as HLa.
  destruct (split_times _ _ _ _ _ HT) as [Ta [T2 [T3 [T4 T5]]]].
  set (t := cmd_ts en) in *. set (e := t + ms_tRFC p).
  assert (forall n d, dev p (filter (to_rank r) (a ++ en :: mid)) n = Some d -> length (dv_banks d) = ms_banks p) as HLen
    by (intros; eapply dev_len; eauto).
  pose proof (sref_cycles p r a en mid T HT (proj2 HL r Hr) HK Hre Hx) as HC. fold t e in HC.
  assert (forall P Q, (forall n d, sref_set e (t + n) (in_deep_sleep r mid (t + n)) d -> length (dv_banks d) = ms_banks p -> P d = Q n) ->
     cycles_where p r (a ++ en :: mid) T P = cycles_where p r a t P + count_below Q (N.to_nat (T - t))) as G.
  { intros P Q HQ. rewrite !cycles_where_cw. rewrite filter_app.
    rewrite (cw_split p _ _ t T P); [|intros c Hc; apply filter_In in Hc as [[<-|Hc] _]; [unfold t; lia|apply T5; auto]|exact T2].
    f_equal. apply count_below_ext. intros m _. rewrite <- filter_app.
    destruct (HC (t + N.of_nat m) ltac:(lia)) as [d [Hd Hs]]. rewrite Hd. cbn. apply HQ; auto. eapply HLen; eauto. }
  assert (forall n, (t + n <? e) = (n <? ms_tRFC p)) as En by (intros n; unfold e; lia).
  destruct W as [W1 W2].
  assert (G5 : forall m, m = ActPd \/ m = PrePd -> cycles_where p r (a ++ en :: mid) T (mode_is m) = cycles_where p r a t (mode_is m)).
  { intros m Hm. rewrite (G (mode_is m) (fun _ => false)).
    - rewrite count_below_zero by auto. lia.
    - intros n d Hs Hd. destruct (sref_cycle e (t + n) _ d 0%nat ltac:(lia) Hs) as [S1 [S2 [S3 [S4 [S5 [S6 _]]]]]].
      destruct Hm as [-> | ->]; auto. }
  assert (G6 : cycles_where p r (a ++ en :: mid) T (mode_is DeepSleep) = cycles_where p r a t (mode_is DeepSleep) +
     count_below (fun n => in_deep_sleep r mid (t + n)) (N.to_nat (T - t))).
  { apply G. intros n d Hs Hd. apply (sref_cycle e (t + n) _ d 0%nat ltac:(lia) Hs). }
  assert (G7 : cycles_where p r (a ++ en :: mid) T (mode_is SelfRef) = cycles_where p r a t (mode_is SelfRef) +
     count_below (fun n => negb (n <? ms_tRFC p) && negb (in_deep_sleep r mid (t + n))) (N.to_nat (T - t))).
  { apply G. intros n d Hs Hd. rewrite <- En. apply (sref_cycle e (t + n) _ d 0%nat ltac:(lia) Hs). }
  assert (G8 : count_below (fun n => negb (n <? ms_tRFC p) && negb (in_deep_sleep r mid (t + n))) (N.to_nat (T - t)) +
     count_below (fun n => in_deep_sleep r mid (t + n)) (N.to_nat (T - t)) = T - e).
  { rewrite (count_add _ _ (fun n => ms_tRFC p <=? n)).
    - rewrite count_ge. unfold e. lia.
    - intros m _. destruct (HC (t + N.of_nat m) ltac:(lia)) as [d [Hd Hs]].
      destruct (sref_cycle e (t + N.of_nat m) _ d 0%nat ltac:(rewrite (HLen _ _ Hd); lia) Hs) as [_ [_ [_ [_ [_ [_ [_ [_ S]]]]]]]].
      rewrite N.ltb_antisym, negb_involutive.
      destruct (in_deep_sleep r mid (t + N.of_nat m)); cbn.
      + specialize (S eq_refl). destruct (N.leb_spec (ms_tRFC p) (N.of_nat m)); cbn; auto. unfold e in S. lia.
      + destruct (N.leb_spec (ms_tRFC p) (N.of_nat m)); reflexivity. }
  split.
  - exists (spec_rank p r a t), (spec_rank p r (a ++ en :: mid) T).
    split; [apply rank_view_spec; auto; split; auto|]. split; [apply rank_view_spec; auto; split; auto|].
    unfold spec_rank, sref_growth; cbn [cy_act cy_pre cy_pda cy_pdp cy_sref cy_dsm].
    rewrite (G5 ActPd), (G5 PrePd), G6, G7 by auto.
    rewrite (G rank_acts (fun n => n <? ms_tRFC p)), (G rank_idles (fun _ => false)).
    + rewrite count_lt, (count_below_zero (fun _ => false)) by auto. unfold e in *. repeat split; lia.
    + intros n d Hs Hd. apply (sref_cycle e (t + n) _ d 0%nat ltac:(lia) Hs).
    + intros n d Hs Hd. rewrite <- En. apply (sref_cycle e (t + n) _ d 0%nat ltac:(lia) Hs).
  - intros b Hb. exists (spec_bank p r b a t), (spec_bank p r b (a ++ en :: mid) T).
    split; [apply bank_view_spec; auto; split; auto|]. split; [apply bank_view_spec; auto; split; auto|].
    unfold spec_bank, sref_growth; cbn [cy_act cy_pre cy_pda cy_pdp cy_sref cy_dsm].
    rewrite (G5 ActPd), (G5 PrePd), G6, G7 by auto.
    rewrite (G (bank_acts b) (fun n => n <? ms_tRFC p)), (G (bank_idles b) (fun _ => false)).
    + rewrite count_lt, (count_below_zero (fun _ => false)) by auto. unfold e in *. repeat split; lia.
    + intros n d Hs Hd. apply (sref_cycle e (t + n) _ d b ltac:(lia) Hs).
    + intros n d Hs Hd. rewrite <- En. apply (sref_cycle e (t + n) _ d b ltac:(lia) Hs).
Qed.

(* A legal self-refresh exit comes no earlier than the refresh of the entry
   takes. *)
Theorem sref_exit_time p r a en mid ex T :
  timely p (a ++ en :: mid ++ [ex]) T -> legal p r (a ++ en :: mid ++ [ex]) ->
  cmd_type en = SREFEN -> to_rank r en = true ->
  (forall c, In c mid -> to_rank r c = true -> cmd_type c <> SREFEX) ->
  cmd_type ex = SREFEX -> to_rank r ex = true ->
  cmd_ts en + ms_tRFC p <= cmd_ts ex.
Proof.
  intros HT HL HK Hre Hx HKx Hrx.
  assert (a ++ en :: mid ++ [ex] = (a ++ en :: mid) ++ [ex]) as E by (rewrite <- app_assoc; reflexivity).
  rewrite E in *. clear E.
  destruct (split_times _ _ _ _ _ HT) as [Ta [T2 [T3 [T4 T5]]]].
  assert (cmd_ts en <= cmd_ts ex) as Hle by (apply T4; apply in_or_app; right; left; auto).
  destruct (sref_cycles p r a en mid (cmd_ts ex) Ta (legal_cat _ _ _ _ HL) HK Hre Hx (cmd_ts ex) Hle) as [d [Hd Hs]].
  destruct (legal_run _ _ _ HL) as [dF HF]. rewrite filter_app1, Hrx, run_device_app in HF.
  unfold dev in Hd. rewrite filter_all in Hd; [|intros x Hin; apply filter_In in Hin as [Hin _]; specialize (T4 x Hin); lia].
  destruct (run_device p (filter (to_rank r) (a ++ en :: mid)) (device_new p)) as [d2|]; [|discriminate].
  cbn in Hd. injection Hd as Hd. rewrite Hd in HF. unfold sref_set in Hs.
  destruct (N.ltb_spec (cmd_ts ex) (cmd_ts en + ms_tRFC p)) as [Hlt|]; auto. exfalso.
  destruct Hs as [[M [P _]] _]. unfold command in HF. rewrite HKx, P in HF.
  destruct (_ && _) in HF; discriminate.
Qed.

(* One deep-sleep phase counts with its length. *)
Lemma one_deep_sleep r x y m1 m2 m3 t T :
  to_rank r x = true -> to_rank r y = true -> cmd_type x = DSMEN -> cmd_type y = DSMEX ->
  (forall c, In c (m1 ++ m2 ++ m3) -> to_rank r c = true -> cmd_type c <> DSMEN /\ cmd_type c <> DSMEX) ->
  t <= cmd_ts x -> cmd_ts x <= cmd_ts y -> cmd_ts y <= T ->
  count_below (fun n => in_deep_sleep r (m1 ++ x :: m2 ++ y :: m3) (t + n)) (N.to_nat (T - t)) = cmd_ts y - cmd_ts x.
Proof.
  intros Rx Ry Kx Ky Hm H1 H2 H3.
  assert (forall m n s, (forall c, In c m -> to_rank r c = true -> cmd_type c <> DSMEN /\ cmd_type c <> DSMEX) ->
    fold_left (fun s c => if to_rank r c && (cmd_ts c <=? n)
                        then match cmd_type c with DSMEN => true | DSMEX => false | _ => s end
                        else s) m s = s) as F.
  { induction m as [|c m IH]; intros n s HH; cbn; auto. rewrite IH by (intros; apply HH; cbn; auto).
    destruct (to_rank r c) eqn:E; cbn; auto. destruct (HH c (or_introl eq_refl) E) as [Z1 Z2].
    destruct (cmd_ts c <=? n); auto. destruct (cmd_type c); auto; congruence. }
  rewrite (count_below_ext _ (fun n => (cmd_ts x <=? t + n) && negb (cmd_ts y <=? t + n))).
  - rewrite (count_split _ (cmd_ts y - t) (T - t)) by lia.
    rewrite (count_below_ext _ (fun n => (cmd_ts x - t) <=? n)) by (intros m Hm'; lia).
    rewrite count_ge, count_below_zero by (intros m; lia). lia.
  - intros n _. unfold in_deep_sleep. rewrite fold_left_app. cbn. rewrite fold_left_app. cbn.
    rewrite F by (intros ? Hc Hrc; apply Hm; [rewrite !in_app_iff; auto|exact Hrc]). rewrite Rx, Kx, Ry, Ky. cbn.
    rewrite F by (intros ? Hc Hrc; apply Hm; [rewrite !in_app_iff; auto|exact Hrc]).
    rewrite F by (intros ? Hc Hrc; apply Hm; [rewrite !in_app_iff; auto|exact Hrc]).
    destruct (N.leb_spec (cmd_ts x) (t + N.of_nat n)), (N.leb_spec (cmd_ts y) (t + N.of_nat n)); auto.
Qed.

(* ---- active power-down ---- *)

(* A rank that waits for a mode change or sleeps in active power-down only lets
   no-operations through, so nothing changes but time. *)
Lemma apd_run p l : forall e now d0 d d',
  dv_mode d0 = Up ->
  nondecreasing now (map cmd_ts l) -> (forall c, In c l -> cmd_type c <> PDXA) ->
  (forall n, now <= n -> settle n d = settle n (with_pend e ActPd d0)) ->
  run_device p l d = Some d' ->
  forall n, final_time now (map cmd_ts l) <= n -> settle n d' = settle n (with_pend e ActPd d0).
Proof.
  induction l as [|c l IH]; intros e now d0 d d' M Hn Hx HS HR n Hfn; cbn in HR.
  - injection HR as <-. apply HS. exact Hfn.
  - destruct (command p c (settle (cmd_ts c) d)) as [d1|] eqn:E; [|discriminate].
    destruct Hn as [Hn1 Hn2]. rewrite HS in E by auto.
    assert (d1 = settle (cmd_ts c) (with_pend e ActPd d0)) as ->.
    { unfold command in E. destruct (_ && _) in E; [|discriminate].
      pose proof (Hx c (or_introl eq_refl)) as Hc.
      unfold settle in E |- *. cbn [with_pend dv_pend dv_mode dv_banks] in E |- *. rewrite M in E |- *.
      destruct (e <=? cmd_ts c); cbn [dv_pend dv_mode] in E |- *;
        destruct (cmd_type c); try discriminate; try congruence; injection E as <-; reflexivity. }
    apply (IH e (cmd_ts c) d0 _ d' M) with (n := n) in HR; auto.
    + intros; apply Hx; cbn; auto.
    + intros m Hm. apply settle_settle. exact Hm.
Qed.

Definition obs (d : device) : list sbank * smode := (dv_banks d, dv_mode d).

Lemma final_filter_le n l : forall f, f <= n -> final_time f (map cmd_ts (filter (fun c => cmd_ts c <=? n) l)) <= n.
Proof.
  induction l as [|c l IH]; intros f Hf; [exact Hf|]. cbn. destruct (N.leb_spec (cmd_ts c) n).
  - cbn. unfold final_time; cbn. apply IH. lia.
  - apply IH. exact Hf.
Qed.

Lemma settle_open_busy e sb : is_open sb || closed_before e sb = true -> busy (settle_bank e sb) = is_open sb.
Proof.
  unfold is_open, closed_before, settle_bank, busy. destruct (sb_state sb) eqn:S; cbn; intros H; try (rewrite S; reflexivity).
  - destruct (N.leb_spec at_ e); [reflexivity|lia].
  - destruct (N.leb_spec until e); [reflexivity|lia].
Qed.

Lemma busy_wake x sb : busy (wake_bank x sb) = busy sb.
Proof. unfold wake_bank, busy. destruct (sb_state sb) eqn:S; cbn; rewrite ?S; auto. Qed.

Lemma apd_dev p r a en mid ex T :
  timely p (a ++ en :: mid ++ [ex]) T -> legal p r (a ++ en :: mid ++ [ex]) ->
  cmd_type en = PDEA -> to_rank r en = true ->
  (forall c, In c mid -> to_rank r c = true -> cmd_type c <> PDXA) ->
  cmd_type ex = PDXA -> to_rank r ex = true ->
  exists e x, cmd_ts en <= e /\ e <= cmd_ts ex /\ cmd_ts ex <= x /\
    let l := filter (to_rank r) (a ++ en :: mid ++ [ex]) in
    let la := filter (to_rank r) a in
    (forall n, n < e -> option_map obs (dev p l n) = option_map obs (dev p la n)) /\
    (forall n, e <= n -> n < x -> exists d, dev p l n = Some d /\ dv_mode d = ActPd) /\
    exists d', dev p la e = Some d' /\ dv_mode d' = Up /\
    (forall n, x <= n -> exists d, dev p l n = Some d /\ dv_mode d = Up /\
       forall b, option_map busy (nth_error (dv_banks d) b) = option_map busy (nth_error (dv_banks d') b)).
Proof.
  intros HT HL Ke Re Hx Kx Rx.
  destruct (split_times _ _ _ _ _ HT) as [Ta [T2 [T3 [T4 T5]]]].
  set (t := cmd_ts en) in *. set (u := cmd_ts ex) in *.
  apply nondecreasing_cat in T3 as [T3 T3']. cbn in T3'. destruct T3' as [Tu _]. fold u in Tu.
  destruct (nondecreasing_ge _ _ T3) as [Gm Gm'].
  assert (t <= u) as Htu by lia.
  destruct (legal_run _ _ _ HL) as [dF HF].
  set (lm := filter (to_rank r) mid) in *. set (la := filter (to_rank r) a) in *.
  assert (filter (to_rank r) (a ++ en :: mid ++ [ex]) = la ++ en :: lm ++ [ex]) as EL.
  { rewrite filter_app. cbn [filter]. rewrite Re, filter_app. cbn [filter]. rewrite Rx. reflexivity. }
  rewrite EL in *.
  rewrite run_device_cat in HF. destruct (run_device p la (device_new p)) as [da|] eqn:Ea; [|discriminate].
  cbn in HF. fold t in HF. set (D0 := settle t da) in *.
  destruct (command p en D0) as [d1|] eqn:E1; [|discriminate].
  assert (dv_pend D0 = None /\ dv_mode D0 = Up /\
    exists e, t <= e /\ forallb (fun b => is_open b || closed_before e b) (dv_banks D0) = true /\ d1 = with_pend e ActPd D0) as [P0 [M0 [e [He [G0 ->]]]]].
  { unfold command in E1. rewrite Ke in E1. destruct (_ && _) in E1; [|discriminate].
    destruct (dv_pend D0); [discriminate|]. destruct (dv_mode D0); try discriminate. split; auto. split; auto.
    unfold up_command in E1. rewrite Ke in E1. apply guard_some in E1 as [G <-]. apply andb_true_iff in G as [_ G].
    eexists. split; [|split; [exact G|reflexivity]]. fold t. lia. }
  rewrite run_device_app in HF.
  destruct (run_device p lm (with_pend e ActPd D0)) as [dm|] eqn:Em; [|discriminate].
  assert (forall n, t <= n -> option_map (settle n) (run_device p (filter (fun c => cmd_ts c <=? n) lm) (with_pend e ActPd D0))
     = Some (settle n (with_pend e ActPd D0))) as HM.
  { intros n Hn. pose proof (filter_nondecreasing (to_rank r) mid _ T3) as N1.
    destruct (filter_prefix n _ _ N1) as [z [Hz _]]. fold lm in N1, Hz.
    rewrite Hz, run_device_cat in Em.
    destruct (run_device p (filter (fun c => cmd_ts c <=? n) lm) (with_pend e ActPd D0)) as [d2|] eqn:E2; [|discriminate].
    cbn. f_equal. apply (apd_run p (filter (fun c => cmd_ts c <=? n) lm) e t D0 (with_pend e ActPd D0)); auto.
    - apply filter_nondecreasing. exact N1.
    - intros c Hc. apply filter_In in Hc as [Hc _]. unfold lm in Hc. apply filter_In in Hc as [Hc Hc']. auto.
    - apply final_filter_le. exact Hn. }
  assert (settle u dm = settle u (with_pend e ActPd D0)) as Su.
  { specialize (HM u Htu). rewrite filter_all in HM; [rewrite Em in HM; cbn [option_map] in HM; congruence|].
    intros c Hc. unfold lm in Hc. apply filter_In in Hc as [Hc _]. specialize (Gm' c Hc). lia. }
  fold u in HF. rewrite Su in HF. set (D1 := settle u (with_pend e ActPd D0)) in *.
  assert (forall m, m < e -> settle m (with_pend e ActPd D0) = with_pend e ActPd (settle m D0)) as Slt.
  { intros m Hm. unfold settle, with_pend. cbn [dv_pend dv_mode dv_banks]. rewrite P0. destruct (N.leb_spec e m); [lia|reflexivity]. }
  assert (forall m, e <= m -> settle m (with_pend e ActPd D0) = mkDev (map (settle_bank m) (dv_banks D0)) ActPd None) as Sge.
  { intros m Hm. unfold settle, with_pend. cbn [dv_pend dv_mode dv_banks]. rewrite M0. destruct (N.leb_spec e m); [reflexivity|lia]. }
  assert (e <= u) as Heu.
  { destruct (N.le_gt_cases e u); auto. exfalso. unfold D1 in HF. rewrite Slt in HF by auto.
    unfold command in HF. rewrite Kx in HF. cbn [with_pend dv_pend] in HF. destruct (_ && _) in HF; discriminate. }
  assert (D1 = mkDev (map (settle_bank u) (dv_banks D0)) ActPd None) as ED1 by (apply Sge; auto).
  assert (exists x, u <= x /\ dF = with_pend x Up D1) as [x [Hux ->]].
  { unfold command in HF. rewrite Kx in HF. destruct (_ && _) in HF; [|discriminate].
    rewrite ED1 in HF |- *. cbn [dv_pend dv_mode] in HF. injection HF as <-. eexists. split; [|reflexivity]. fold u. lia. }
  exists e, x. split; auto. split; auto. split; auto. cbv zeta.
  assert (forall n, n < t -> dev p (la ++ en :: lm ++ [ex]) n = dev p la n) as V0.
  { intros n Hn. unfold dev. rewrite filter_app. rewrite (filter_none _ (en :: lm ++ [ex])), app_nil_r; auto.
    intros c [<-|Hc]; [fold t; lia|]. apply in_app_or in Hc as [Hc|[<-|[]]]; [|fold u; lia].
    unfold lm in Hc. apply filter_In in Hc as [Hc _]. specialize (Gm' c Hc). lia. }
  assert (forall n, t <= n -> dev p la n = Some (settle n D0)) as Va.
  { intros n Hn. unfold dev. rewrite filter_all, Ea; [cbn; f_equal; symmetry; apply settle_settle; auto|].
    intros c Hc. unfold la in Hc. apply filter_In in Hc as [Hc _]. specialize (T4 c Hc). lia. }
  assert (forall n, t <= n -> filter (fun c => cmd_ts c <=? n) (la ++ en :: lm ++ [ex]) =
     la ++ en :: filter (fun c => cmd_ts c <=? n) lm ++ (if u <=? n then [ex] else [])) as Fl.
  { intros n Hn. rewrite filter_app. cbn [filter]. rewrite filter_app. cbn [filter]. fold t u.
    rewrite (filter_all _ la); [|intros c Hc; unfold la in Hc; apply filter_In in Hc as [Hc _]; specialize (T4 c Hc); lia].
    destruct (N.leb_spec t n); [|lia]. destruct (u <=? n); reflexivity. }
  assert (forall n, t <= n -> n < u -> dev p (la ++ en :: lm ++ [ex]) n = Some (settle n (with_pend e ActPd D0))) as V1.
  { intros n Hn Hnu. unfold dev. rewrite Fl by auto. destruct (N.leb_spec u n); [lia|]. rewrite app_nil_r.
    rewrite run_device_cat, Ea. cbn [run_device]. fold t D0. rewrite E1. apply HM. auto. }
  assert (forall n, u <= n -> dev p (la ++ en :: lm ++ [ex]) n = Some (settle n (with_pend x Up D1))) as V2.
  { intros n Hnu. unfold dev. rewrite Fl by lia. destruct (N.leb_spec u n); [|lia].
    rewrite (filter_all _ lm); [|intros c Hc; unfold lm in Hc; apply filter_In in Hc as [Hc _]; specialize (Gm' c Hc); lia].
    rewrite run_device_cat, Ea. cbn [run_device]. fold t D0. rewrite E1, run_device_app, Em. fold u. rewrite Su. fold D1. rewrite HF. reflexivity. }
  split; [|split].
  - intros n Hn. destruct (N.lt_ge_cases n t) as [Hnt|Hnt]; [rewrite V0 by auto; reflexivity|].
    rewrite V1, Va, Slt by lia. reflexivity.
  - intros n Hn1 Hn2. destruct (N.lt_ge_cases n u) as [Hnu|Hnu].
    + rewrite V1 by lia. eexists. split; [reflexivity|]. rewrite Sge by auto. reflexivity.
    + rewrite V2 by lia. eexists. split; [reflexivity|]. rewrite ED1. unfold settle, with_pend; cbn.
      destruct (N.leb_spec x n); [lia|reflexivity].
  - exists (settle e D0). split; [apply Va; auto|]. split; [unfold settle; rewrite P0; exact M0|].
    intros n Hn. rewrite V2 by lia. eexists. split; [reflexivity|].
    rewrite ED1. unfold settle, with_pend. cbn [dv_pend dv_mode dv_banks]. rewrite P0.
    destruct (N.leb_spec x n); [|lia]. split; [reflexivity|].
    intros b. cbn [dv_banks]. rewrite !map_map, !nth_error_map.
    destruct (nth_error (dv_banks D0) b) as [sb|] eqn:Eb; cbn; auto. f_equal.
    rewrite busy_wake, settle_bank_idem by lia.
    rewrite forallb_nth in G0. specialize (G0 b sb Eb). rewrite (settle_open_busy e sb G0).
    apply settle_open_busy. apply orb_true_iff in G0 as [G0|G0]; [rewrite G0; auto|].
    apply orb_true_iff. right. unfold closed_before in *. destruct (sb_state sb); auto; try lia. destruct (sb_off sb); lia.
Qed.

(* Bank or rank, seen over an active power-down. *)
Lemma apd_counts p r a en mid ex T (P : device -> bool) :
  timely p (a ++ en :: mid ++ [ex]) T -> legal p r (a ++ en :: mid ++ [ex]) ->
  cmd_type en = PDEA -> to_rank r en = true ->
  (forall c, In c mid -> to_rank r c = true -> cmd_type c <> PDXA) ->
  cmd_type ex = PDXA -> to_rank r ex = true ->
  exists e x, cmd_ts en <= e /\ e <= cmd_ts ex /\ cmd_ts ex <= x /\
    (forall P, (forall d d', obs d = obs d' -> P d = P d') -> (forall d, dv_mode d = ActPd -> P d = false) ->
       (forall d d', dv_mode d = Up -> dv_mode d' = Up ->
         (forall b, option_map busy (nth_error (dv_banks d) b) = option_map busy (nth_error (dv_banks d') b)) -> P d = P d') ->
       cycles_where p r (a ++ en :: mid ++ [ex]) T P =
       cycles_where p r a e P + (cycles_where p r a (e + 1) P - cycles_where p r a e P) * (T - x)) /\
    cycles_where p r (a ++ en :: mid ++ [ex]) T (mode_is ActPd) = cycles_where p r a e (mode_is ActPd) + (N.min T x - e).
Proof.
  intros HT HL Ke Re Hx Kx Rx.
  destruct (apd_dev p r a en mid ex T HT HL Ke Re Hx Kx Rx) as [e [x [H1 [H2 [H3 [V0 [V1 [d' [V2 [V3 V4]]]]]]]]]].
  exists e, x. split; auto. split; auto. split; auto.
  assert (cmd_ts ex <= T) as HuT.
  { destruct HT as [_ [_ [HT _]]]. replace (a ++ en :: mid ++ [ex]) with ((a ++ en :: mid) ++ [ex]) in HT by (rewrite <- app_assoc; reflexivity).
    rewrite final_time_app in HT. exact HT. }
  split.
  - intros Q Q1 Q2 Q3. rewrite !cycles_where_cw. unfold cw.
    rewrite (count_split _ e T) by lia. f_equal.
    + apply count_below_ext. intros m Hm. specialize (V0 (N.of_nat m) ltac:(lia)).
      destruct (dev p (filter (to_rank r) (a ++ en :: mid ++ [ex])) (N.of_nat m)), (dev p (filter (to_rank r) a) (N.of_nat m)); cbn in V0; try discriminate; auto.
      apply Q1. congruence.
    + replace (N.to_nat (e + 1)) with (S (N.to_nat e)) by lia. cbn [count_below]. rewrite N2Nat.id, V2.
      rewrite (count_below_ext _ (fun n => (x - e <=? n) && Q d')).
      * destruct (Q d').
        { rewrite (count_below_ext _ (fun n => x - e <=? n)) by (intros; apply andb_true_r). rewrite count_ge. lia. }
        { rewrite count_below_zero by (intros; apply andb_false_r). lia. }
      * intros m Hm. destruct (N.leb_spec (x - e) (N.of_nat m)) as [Hge|Hlt]; cbn.
        { destruct (V4 (e + N.of_nat m) ltac:(lia)) as [d [Hd [Md Bd]]]. rewrite Hd. apply Q3; auto. }
        { destruct (V1 (e + N.of_nat m) ltac:(lia) ltac:(lia)) as [d [Hd Md]]. rewrite Hd. apply Q2; auto. }
  - rewrite !cycles_where_cw. unfold cw. rewrite (count_split _ e T) by lia. f_equal.
    + apply count_below_ext. intros m Hm. specialize (V0 (N.of_nat m) ltac:(lia)).
      destruct (dev p (filter (to_rank r) (a ++ en :: mid ++ [ex])) (N.of_nat m)), (dev p (filter (to_rank r) a) (N.of_nat m)); cbn in V0; try discriminate; auto.
      unfold mode_is. unfold obs in V0. congruence.
    + rewrite (count_below_ext _ (fun n => n <? x - e)).
      * rewrite count_lt. lia.
      * intros m Hm. destruct (N.ltb_spec (N.of_nat m) (x - e)) as [Hlt|Hge]; cbn.
        { destruct (V1 (e + N.of_nat m) ltac:(lia) ltac:(lia)) as [d [Hd Md]]. rewrite Hd. unfold mode_is. rewrite Md. reflexivity. }
        { destruct (V4 (e + N.of_nat m) ltac:(lia)) as [d [Hd [Md Bd]]]. rewrite Hd. unfold mode_is. rewrite Md. reflexivity. }
Qed.

(* What an active power-down from e to x does to the counts shown at T, given
   what was shown at e and what would have been shown at e + 1 without it. *)
Definition apd_growth (e x T : N) (v v1 w : cycles) : Prop :=
  cy_act w = cy_act v + (cy_act v1 - cy_act v) * (T - x) /\
  cy_pda w = cy_pda v + (N.min T x - e).

Theorem apd_accounting p r a en mid ex T :
  well_formed p -> timely p (a ++ en :: mid ++ [ex]) T -> T + 1 < two64 -> legal_history p (a ++ en :: mid ++ [ex]) ->
  (r < ms_ranks p)%nat ->
  cmd_type en = PDEA -> to_rank r en = true ->
  (forall c, In c mid -> to_rank r c = true -> cmd_type c <> PDXA) ->
  cmd_type ex = PDXA -> to_rank r ex = true ->
  exists e x, cmd_ts en <= e /\ e <= cmd_ts ex /\ cmd_ts ex <= x /\
    (exists v v1 w, rank_view p a e r = Some v /\ rank_view p a (e + 1) r = Some v1 /\
       rank_view p (a ++ en :: mid ++ [ex]) T r = Some w /\ apd_growth e x T v v1 w) /\
    (forall b, (b < ms_banks p)%nat ->
     exists v v1 w, bank_view p a e r b = Some v /\ bank_view p a (e + 1) r b = Some v1 /\
       bank_view p (a ++ en :: mid ++ [ex]) T r b = Some w /\ apd_growth e x T v v1 w).
Proof.
  intros W HT HT1 HL Hr Ke Re Hx Kx Rx.
  destruct (apd_counts p r a en mid ex T (mode_is ActPd) HT (proj2 HL r Hr) Ke Re Hx Kx Rx) as [e [x [H1 [H2 [H3 [C1 C2]]]]]].
  exists e, x. split; auto. split; auto. split; auto.
  pose proof (legal_history_cat _ _ _ HL) as HLa.
  destruct (split_times _ _ _ _ _ HT) as [Ta [T2 [T3 [T4 T5]]]].
  assert (cmd_ts ex <= T) as HuT.
  { destruct HT as [_ [_ [HT _]]]. replace (a ++ en :: mid ++ [ex]) with ((a ++ en :: mid) ++ [ex]) in HT by (rewrite <- app_assoc; reflexivity).
    rewrite final_time_app in HT. exact HT. }
  assert (forall t', cmd_ts en <= t' -> t' < two64 -> timely p a t') as TA.
  { intros t' Ht1 Ht2. destruct Ta as [A1 [A2 [A3 [A4 A5]]]]. repeat split; auto; lia. }
  assert (T < two64) as HT2 by lia.
  split.
  - exists (spec_rank p r a e), (spec_rank p r a (e + 1)), (spec_rank p r (a ++ en :: mid ++ [ex]) T).
    split; [apply rank_view_spec; auto; apply TA; lia|]. split; [apply rank_view_spec; auto; apply TA; lia|].
    split; [apply rank_view_spec; auto|]. split; cbn [spec_rank cy_act cy_pda]; auto.
    apply C1.
    + intros d d' E. unfold obs in E. injection E as E1 E2. unfold rank_acts, mode_is. rewrite E1, E2. reflexivity.
    + intros d E. unfold rank_acts, mode_is. rewrite E. apply andb_false_r.
    + intros d d' M M' B. unfold rank_acts, mode_is. rewrite M, M'. f_equal.
      apply eq_true_iff_eq. rewrite !existsb_nth. split; intros [i [y [I1 I2]]]; specialize (B i); rewrite I1 in B; cbn in B.
      * destruct (nth_error (dv_banks d') i) as [y'|] eqn:E; [|discriminate]. exists i, y'. cbn in B. split; auto. congruence.
      * destruct (nth_error (dv_banks d) i) as [y'|] eqn:E; [|discriminate]. exists i, y'. cbn in B. split; auto. congruence.
  - intros b Hb. exists (spec_bank p r b a e), (spec_bank p r b a (e + 1)), (spec_bank p r b (a ++ en :: mid ++ [ex]) T).
    split; [apply bank_view_spec; auto; apply TA; lia|]. split; [apply bank_view_spec; auto; apply TA; lia|].
    split; [apply bank_view_spec; auto|]. split; cbn [spec_bank cy_act cy_pda]; auto.
    apply C1.
    + intros d d' E. unfold obs in E. injection E as E1 E2. unfold bank_acts, mode_is. rewrite E1, E2. reflexivity.
    + intros d E. unfold bank_acts, mode_is. rewrite E. destruct (nth_error (dv_banks d) b); auto. apply andb_false_r.
    + intros d d' M M' B. unfold bank_acts, mode_is. rewrite M, M'. specialize (B b).
      destruct (nth_error (dv_banks d) b), (nth_error (dv_banks d') b); cbn in B; try discriminate; auto.
      injection B as ->. reflexivity.
Qed.
