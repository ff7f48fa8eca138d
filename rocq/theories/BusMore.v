(* Disabling the bus, overlapping loads, causality of the statistics. *)
From Coq Require Import NArith ZArith Lia List Bool.
From Verif Require Import Base Bits BusModel WaveSpec BitFacts StorageProofs BusProofs.
Import ListNotations.
Local Open Scope N_scope.
Ltac Zify.zify_post_hook ::= idtac.

Lemma disable_ok max width rate idle ls b t :
  (0 < width <= max)%nat -> N.of_nat width < two64 -> 0 < rate -> bounded width idle ->
  bus_inv max width rate idle ls b -> last_start rate ls < t * rate -> t * rate < two64 ->
  exists b', bus_disable b t = Value (b', t) /\ b_enabled b' = false /\ b_datarate b' = rate /\
    forall u, t <= u -> u * rate < two64 ->
      bus_get_stats b' u = Value (wrap_stats (wave_stats width idle (drives_of width rate ls) (t * rate))) /\
      bus_load b' u = (fun _ _ => Value b').
Proof.
  intros Hw H64 Hr Hi B Hl Ht. rewrite <- (bi_ll _ _ _ _ _ _ B) in Hl.
  unfold bus_disable. rewrite (bi_rate _ _ _ _ _ _ B). unfold u64_mul. rewrite N.mod_small by auto.
  rewrite (bi_on _ _ _ _ _ _ B). unfold check at 1. destruct (N.leb_spec (b_last_load b) (t * rate)); [|lia].
  set (b1 := with_enable b true (t * rate) (b_last_load b) (b_pending b)).
  assert (forall s, advance_stats b1 (t * rate) s = advance_stats b (t * rate) s) as A by reflexivity.
  assert (forall n, bus_at b1 n = bus_at b n) as A' by reflexivity.
  unfold add_previous_stats. rewrite A.
  pose proof (collected_ok max width rate idle Hw H64 Hr Hi ls b (t * rate) B ltac:(lia) Ht) as CO.
  assert (b_pending b1 = b_pending b) as -> by reflexivity. assert (b_stats b1 = b_stats b) as -> by reflexivity.
  rewrite CO. clear CO. cbn [bind].
  assert (pd_time (b_pending b) <=? t * rate = true) as -> by (rewrite (bi_pend _ _ _ _ _ _ B); cbn; lia).
  assert (pd_set (b_pending b) && (pd_time (b_pending b) <? t * rate) = true) as ->.
  { rewrite (bi_pend _ _ _ _ _ _ B). cbn [set_pending pd_set pd_time andb]. apply N.ltb_lt. exact Hl. }
  unfold check at 1. destruct (N.ltb_spec 0 (t * rate)); [|lia].
  rewrite A', (bi_at _ _ _ _ _ _ B) by lia. cbn [bind].
  assert (b_datarate (with_store (with_stats b1 (wrap_stats (wave_stats width idle (drives_of width rate ls) (t * rate)))
    (clear_pending (b_pending b)) (wire idle (drives_of width rate ls) (t * rate - 1))) (storage_clear (b_store b1)) (t * rate)) = rate) as R
    by exact (bi_rate _ _ _ _ _ _ B).
 change (b_store (with_stats b1 (wrap_stats (wave_stats width idle (drives_of width rate ls) (t * rate))) (clear_pending (b_pending b)) (wire idle (drives_of width rate ls) (t * rate - 1)))) with (b_store b1). rewrite R. destruct (N.eqb_spec rate 0); [lia|]. rewrite N.div_mul by auto.
  eexists. split; [reflexivity|]. split; [reflexivity|]. split; [exact R|]. intros u Hu U64. split; [|reflexivity].
  unfold bus_get_stats. cbn [with_enable b_datarate b_last_load b_stats b_pending b_enabled].
  rewrite R. unfold u64_mul. rewrite (N.mod_small (u * rate)) by auto.
  assert (t * rate <= u * rate) by (apply N.mul_le_mono_r; exact Hu).
  unfold check. destruct (N.leb_spec (t * rate) (u * rate)); [|lia].
  destruct (N.eqb_spec (u * rate) 0); [lia|]. reflexivity.
Qed.

Theorem bus_disabled_freezes max width rate high ls t :
  (0 < width <= max)%nat -> N.of_nat width < two64 -> 0 < rate ->
  Forall (load_ok width rate) ls -> well_timed width rate 0 ls ->
  last_start rate ls < t * rate -> t * rate < two64 ->
  exists b b', bus_after max width rate high ls = Value b /\ bus_disable b t = Value (b', t) /\
    forall u, t <= u -> u * rate < two64 -> forall data n_bits,
      bus_load b' u data n_bits = Value b' /\
      bus_get_stats b' u =
        Value (wrap_stats (wave_stats width (idle_word width high) (map (drive_of width rate) ls) (t * rate))).
Proof.
  intros Hw H64 Hr F T Ht Ht64.
  destruct (bus_after_inv max width rate high ls Hw H64 Hr F T) as [b [E B]].
  destruct (disable_ok max width rate _ ls b t Hw H64 Hr (word_of_bound _ _) B Ht Ht64) as [b' [E' [_ [_ D]]]].
  exists b, b'. split; [exact E|]. split; [exact E'|]. intros u Hu U64 data n. destruct (D u Hu U64) as [D1 D2].
  split; [rewrite D2; reflexivity|exact D1].
Qed.

(* A load before the end of its predecessor trips the assert. *)
Definition load_end (width : nat) (rate : N) (ls : list load_op) : N :=
  fold_left (fun _ l => lo_time l * rate + N.of_nat (Nat.div (lo_bits l) width)) ls 0.

Lemma run_loads_end max width rate idle (Hw : (0 < width <= max)%nat) (H64 : N.of_nat width < two64) (Hr : 0 < rate)
  (Hi : bounded width idle) ls : forall pre b e, bus_inv max width rate idle pre b ->
  b_last_load b + N.of_nat (bc_count (b_store b)) = e ->
  Forall (load_ok width rate) ls -> well_timed width rate e ls ->
  exists b', run_loads ls b = Value b' /\ bus_inv max width rate idle (pre ++ ls) b' /\
    b_last_load b' + N.of_nat (bc_count (b_store b')) = fold_left (fun _ l => lo_time l * rate + N.of_nat (Nat.div (lo_bits l) width)) ls e.
Proof.
  induction ls as [|l ls IH]; intros pre b e B He F T.
  - exists b. rewrite app_nil_r. split; [reflexivity|]. split; [exact B|exact He].
  - inversion F as [|? ? F1 F2]; subst. destruct T as [T1 T2].
    destruct (load_ok_inv max width rate idle Hw H64 Hr Hi pre b l B F1 T1) as [b1 [E1 [B1 [L1 C1]]]].
    destruct (IH (pre ++ [l]) b1 (lo_time l * rate + N.of_nat (Nat.div (lo_bits l) width)) B1) as [b2 [E2 [B2 L2]]]; auto.
    { rewrite L1, C1. reflexivity. }
    exists b2. unfold run_loads. cbn [loop]. rewrite E1. cbn [bind]. split; [exact E2|].
    rewrite <- app_assoc in B2. split; [exact B2|exact L2].
Qed.

Theorem bus_rejects_overlap max width rate high ls l :
  (0 < width <= max)%nat -> N.of_nat width < two64 -> 0 < rate ->
  Forall (load_ok width rate) ls -> well_timed width rate 0 ls ->
  lo_time l * rate < load_end width rate ls ->
  exists b, bus_after max width rate high ls = Value b /\
    bus_load b (lo_time l) (lo_data l) (lo_bits l) = Fails Assertion.
Proof.
  intros Hw H64 Hr F T Hl.
  destruct (bus_new_inv max width rate high Hw H64) as [b0 [E0 [B0 [L0 C0]]]].
  unfold bus_after. rewrite E0. cbn [bind].
  destruct (run_loads_end max width rate (idle_word width high) Hw H64 Hr (word_of_bound _ _) ls [] b0 0 B0) as [b [E [B L]]]; auto.
  { rewrite L0, C0. reflexivity. }
  exists b. split; [exact E|]. cbn [app] in B. unfold load_end in Hl. rewrite <- L in Hl.
  unfold bus_load. rewrite (bi_on _ _ _ _ _ _ B), (bi_rate _ _ _ _ _ _ B).
  destruct (N.eqb_spec rate 0) as [|_]; [lia|].
  pose proof (bi_end _ _ _ _ _ _ B) as En.
  unfold check at 1. destruct (lo_time l <=? (two64 - 1) / rate); [|reflexivity].
  unfold u64_mul. rewrite (N.mod_small (lo_time l * rate)) by lia.
  unfold u64_add. rewrite (N.mod_small (_ + _)) by exact En.
  unfold check at 1. destruct (N.leb_spec (b_last_load b + N.of_nat (bc_count (b_store b))) (lo_time l * rate)); [lia|reflexivity].
Qed.

(* ---- causality: later loads do not change what is reported for an earlier time ---- *)
Lemma wave_causal width idle rate ls ls' n :
  Forall (fun l => n <= lo_time l * rate) ls' ->
  wave_stats width idle (map (drive_of width rate) (ls ++ ls')) n = wave_stats width idle (map (drive_of width rate) ls) n.
Proof.
  intros H. apply wave_stats_ext. intros i Hi. rewrite map_app. apply wire_app_before.
  apply Forall_map. eapply Forall_impl; [|exact H]. cbv beta. intros l Hl. cbn [drive_of fst]. lia.
Qed.

Lemma well_timed_from width rate ls : forall e, well_timed width rate e ls -> Forall (fun l => e <= lo_time l * rate) ls.
Proof.
  induction ls as [|l ls IH]; intros e H; constructor; destruct H as [H1 H2]; auto.
  eapply Forall_impl; [|apply IH; exact H2]. cbv beta. intros x Hx. etransitivity; [exact H1|]. etransitivity; [|exact Hx]. apply N.le_add_r.
Qed.

Lemma well_timed_app width rate ls ls' : forall e, well_timed width rate e (ls ++ ls') -> well_timed width rate e ls.
Proof. induction ls as [|l ls IH]; intros e H; [exact I|]. destruct H as [H1 H2]. split; [exact H1|]. apply IH. exact H2. Qed.

Theorem bus_additive max width rate high ls ls' t u :
  (0 < width <= max)%nat -> N.of_nat width < two64 -> 0 < rate ->
  Forall (load_ok width rate) (ls ++ ls') -> well_timed width rate 0 (ls ++ ls') ->
  last_start rate ls <= t * rate -> Forall (fun l => t <= lo_time l) ls' ->
  t <= u -> last_start rate (ls ++ ls') <= u * rate -> N.of_nat width * (u * rate) < two64 ->
  exists s s', bus_query max width rate high ls t = Value s /\ bus_query max width rate high (ls ++ ls') u = Value s' /\
    stats_le s s' /\
    (* ones and zeroes added equal the lines times the beats in between *)
    (ones s' - ones s) + (zeroes s' - zeroes s) = N.of_nat width * ((u - t) * rate).
Proof.
  intros Hw H64 Hr F T Ht Hls Htu Hu U.
  assert (t * rate <= u * rate) as Hm by (apply N.mul_le_mono_r; exact Htu).
  assert (0 < N.of_nat width) as Hw0 by lia.
  assert (u * rate < two64) as U64 by nia.
  assert (N.of_nat width * (t * rate) < two64) as V by nia.
  exists (wave_stats width (idle_word width high) (map (drive_of width rate) ls) (t * rate)).
  exists (wave_stats width (idle_word width high) (map (drive_of width rate) (ls ++ ls')) (u * rate)).
  rewrite bus_is_waveform; auto; [| apply Forall_app in F; apply F | apply (well_timed_app width rate ls ls'); exact T | lia].
  rewrite bus_is_waveform by auto. rewrite !wave_small by auto.
  split; [reflexivity|]. split; [reflexivity|].
  rewrite <- (wave_causal width _ rate ls ls' (t * rate)).
  2: { eapply Forall_impl; [|exact Hls]. cbv beta. intros l Hl. apply N.mul_le_mono_r. exact Hl. }
  set (ds := map _ (ls ++ ls')). pose proof (wave_monotone width (idle_word width high) ds _ _ Hm) as Mo.
  split; [exact Mo|].
  destruct (wave_conserves width (idle_word width high) ds (t * rate)) as [C1 _].
  destruct (wave_conserves width (idle_word width high) ds (u * rate)) as [C2 _].
  destruct Mo as [M1 [M2 _]]. rewrite N.mul_sub_distr_r, N.mul_sub_distr_l. lia.
Qed.
