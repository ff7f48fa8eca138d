(* The core properties in the form in which PropDevice.v states them. *)
From Coq Require Import ZArith NArith List Bool Lia ZifyBool ZifyNat ZifyN.
From Verif Require Import Base Command CoreModel ListFacts QueueProofs CoreBasics HistorySpec CoreHistory DeviceSpec RefineBase RefineMain DeviceFacts DeviceSleep DeviceAuto.
Import ListNotations.
Local Open Scope N_scope.

Lemma legal_history_accepted p cs t : well_formed p -> timely p cs t -> legal_history p cs ->
  exists s, run_core p cs (core_new p) = Ok s.
Proof. intros W T [L1 L2]. eapply legal_accepted; eauto. Qed.

Lemma rank_adds_up p cs t r : well_formed p -> timely p cs t -> legal_history p cs -> (r < ms_ranks p)%nat ->
  exists c, rank_view p cs t r = Some c /\
    cy_act c + cy_pre c + cy_pda c + cy_pdp c + cy_sref c + cy_dsm c = t.
Proof.
  intros W T L Hr. exists (spec_rank p r cs t). split; [apply rank_view_spec; auto|].
  apply (legal_sums p r cs t W T (proj2 L r Hr)).
Qed.

Lemma bank_adds_up p cs t r b : well_formed p -> timely p cs t -> legal_history p cs ->
  (r < ms_ranks p)%nat -> (b < ms_banks p)%nat ->
  exists c, bank_view p cs t r b = Some c /\
    cy_act c + cy_pre c + cy_pda c + cy_pdp c + cy_sref c + cy_dsm c = t.
Proof.
  intros W T L Hr Hb. exists (spec_bank p r b cs t). split; [apply bank_view_spec; auto|].
  apply (legal_sums p r cs t W T (proj2 L r Hr)). exact Hb.
Qed.

Lemma auto_precharge_activation p r a1 act a2 x y off mid pre post T :
  let a := a1 ++ act :: a2 in
  let h1 := a ++ x :: mid ++ post in
  let h2 := a ++ y :: mid ++ pre :: post in
  well_formed p -> (r < ms_ranks p)%nat ->
  to_rank r act = true -> cmd_type act = ACT -> addr act = addr x ->
  (forall z, In z a2 -> touches p r (addr x) z = true -> cmd_type z = RD \/ cmd_type z = WR) ->
  to_rank r x = true -> auto_pair p x y off ->
  cmd_type pre = PRE -> cmd_rank pre = cmd_rank x -> cmd_bank pre = cmd_bank x ->
  cmd_ts pre = N.max (cmd_ts act + ms_tRAS p) (cmd_ts x + off) ->
  (forall z, In z mid -> touches p r (addr x) z = false) ->
  timely p h1 T -> timely p h2 T -> legal_history p h1 ->
  legal_history p h2 /\
  (forall r', (r' < ms_ranks p)%nat -> rank_view p h1 T r' = rank_view p h2 T r') /\
  (forall r' b, (r' < ms_ranks p)%nat -> (b < ms_banks p)%nat ->
     bank_view p h1 T r' b = bank_view p h2 T r' b) /\
  (forall r' b k, (r' < ms_ranks p)%nat -> (b < ms_banks p)%nat ->
     ~ In k [K_pre; K_reads; K_readAuto; K_writes; K_writeAuto] ->
     bank_counter p h1 T r' b k = bank_counter p h2 T r' b k).
Proof.
  intros a h1 h2 W Hr Ra Ka Aa Ha2 Rx AP Kp Rp Bp Tp Hm T1 T2 HL.
  eapply auto_precharge; eauto. rewrite <- Aa. apply since_activation; auto.
  - apply (legal_cat p r a (x :: mid ++ post)). apply HL. exact Hr.
  - rewrite Aa. exact Ha2.
  - intros z Hz. destruct (split_times _ _ _ _ _ T1) as [_ [_ [_ [Ta _]]]]. apply Ta. exact Hz.
Qed.

Lemma rank_is_union p cs t r : well_formed p -> timely p cs t -> legal_history p cs -> (r < ms_ranks p)%nat ->
  exists c, rank_view p cs t r = Some c /\ cy_act c = cycles_where p r cs t (some_bank_acts p).
Proof.
  intros W T L Hr. exists (spec_rank p r cs t). split; [apply rank_view_spec; auto|].
  cbn [spec_rank cy_act]. apply rank_act_union.
Qed.

Lemma rank_between p cs t r : well_formed p -> timely p cs t -> legal_history p cs -> (r < ms_ranks p)%nat ->
  exists c vs, rank_view p cs t r = Some c /\
    map (bank_view p cs t r) (seq 0 (ms_banks p)) = map Some vs /\
    Forall (fun v => cy_act v <= cy_act c) vs /\
    cy_act c <= fold_right N.add 0 (map cy_act vs).
Proof.
  intros W T L Hr. exists (spec_rank p r cs t), (map (fun b => spec_bank p r b cs t) (seq 0 (ms_banks p))).
  destruct (rank_act_bounds p r cs t) as [B1 B2].
  split; [apply rank_view_spec; auto|]. split; [|split].
  - rewrite map_map. apply map_ext_in. intros b Hb. apply in_seq in Hb. apply bank_view_spec; auto. lia.
  - apply Forall_map, Forall_forall. intros b Hb. apply in_seq in Hb. cbn [spec_rank spec_bank cy_act]. apply B1. lia.
  - rewrite map_map. exact B2.
Qed.

Lemma timely_next p cs t : timely p cs t -> t + 1 < two64 -> timely p cs (t + 1).
Proof. intros [H1 [H2 [H3 [H4 H5]]]] H. repeat split; auto; lia. Qed.

Lemma rank_monotone p cs t r : well_formed p -> timely p cs t -> t + 1 < two64 -> legal_history p cs -> (r < ms_ranks p)%nat ->
  exists c c', rank_view p cs t r = Some c /\ rank_view p cs (t + 1) r = Some c' /\
    Forall2 (fun x y => x <= y <= x + 1)
      [cy_act c; cy_pre c; cy_pda c; cy_pdp c; cy_sref c; cy_dsm c]
      [cy_act c'; cy_pre c'; cy_pda c'; cy_pdp c'; cy_sref c'; cy_dsm c'].
Proof.
  intros W T T1 L Hr. exists (spec_rank p r cs t), (spec_rank p r cs (t + 1)).
  split; [apply rank_view_spec; auto|]. split; [apply rank_view_spec; auto using timely_next|].
  repeat constructor; apply cycles_where_mono.
Qed.

Lemma bank_monotone p cs t r b : well_formed p -> timely p cs t -> t + 1 < two64 -> legal_history p cs ->
  (r < ms_ranks p)%nat -> (b < ms_banks p)%nat ->
  exists c c', bank_view p cs t r b = Some c /\ bank_view p cs (t + 1) r b = Some c' /\
    Forall2 (fun x y => x <= y <= x + 1)
      [cy_act c; cy_pre c; cy_pda c; cy_pdp c; cy_sref c; cy_dsm c]
      [cy_act c'; cy_pre c'; cy_pda c'; cy_pdp c'; cy_sref c'; cy_dsm c'].
Proof.
  intros W T T1 L Hr Hb. exists (spec_bank p r b cs t), (spec_bank p r b cs (t + 1)).
  split; [apply bank_view_spec; auto|]. split; [apply bank_view_spec; auto using timely_next|].
  repeat constructor; apply cycles_where_mono.
Qed.

Lemma cycles_where_prefix p r a z t P : (forall c, In c z -> t <= cmd_ts c) ->
  cycles_where p r (a ++ z) t P = cycles_where p r a t P.
Proof.
  intros H. rewrite !cycles_where_cw. rewrite filter_app, (cw_split p _ _ t t P); [|intros c Hc; apply filter_In in Hc as [Hc _]; auto|lia].
  replace (t - t) with 0 by lia. cbn. lia.
Qed.

Lemma sref_whole_stay p r a en mid ex :
  let h := a ++ en :: mid ++ [ex] in
  let t := cmd_ts en in let u := cmd_ts ex in
  well_formed p -> timely p h u -> legal_history p h -> (r < ms_ranks p)%nat ->
  cmd_type en = SREFEN -> to_rank r en = true ->
  (forall c, In c mid -> to_rank r c = true -> cmd_type c <> SREFEX) ->
  cmd_type ex = SREFEX -> to_rank r ex = true ->
  t + ms_tRFC p <= u /\
  forall b, (b < ms_banks p)%nat ->
  exists v0 v, bank_view p a t r b = Some v0 /\ bank_view p h u r b = Some v /\
    cy_act v = cy_act v0 + ms_tRFC p /\
    cy_sref v + cy_dsm v = cy_sref v0 + cy_dsm v0 + (u - (t + ms_tRFC p)) /\
    cy_pre v = cy_pre v0 /\ cy_pda v = cy_pda v0 /\ cy_pdp v = cy_pdp v0.
Proof.
  intros h t u W T L Hr Ke Re Hx Kx Rx.
  assert (t + ms_tRFC p <= u) as Hu by (eapply (sref_exit_time p r a en mid ex); eauto; apply L; auto).
  split; auto. intros b Hb.
  assert (h = (a ++ en :: mid) ++ [ex]) as Eh by (unfold h; rewrite <- app_assoc; reflexivity).
  assert (timely p (a ++ en :: mid) u) as T'.
  { rewrite Eh in T. eapply timely_prefix; [exact T| |lia]. destruct T as [T _]. apply nondecreasing_cat in T as [_ [T _]]. exact T. }
  assert (legal_history p (a ++ en :: mid)) as L' by (rewrite Eh in L; eapply legal_history_cat; eauto).
  destruct (sref_accounting p r a en mid u W T' L' Hr Ke Re Hx) as [_ S]. specialize (S b Hb).
  destruct S as [v0 [v [S1 [S2 [G1 [G2 [G3 [G4 [G5 G6]]]]]]]]]. exists v0, v. fold t in S1, G1, G2, G3, G4, G5, G6.
  split; auto. split.
  - rewrite bank_view_spec in * by auto. rewrite <- S2. f_equal. unfold spec_bank.
    rewrite Eh. f_equal; apply cycles_where_prefix; intros c [<-|[]]; unfold u; lia.
  - rewrite G1. repeat split; auto. lia.
Qed.
