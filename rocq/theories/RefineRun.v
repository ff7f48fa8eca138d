(* The model of a rank follows the reference machine along every legal history. *)
From Coq Require Import ZArith NArith List Bool Lia ZifyBool ZifyNat ZifyN Sorting.Sorted Permutation.
From Verif Require Import Base Command CoreModel ListFacts QueueProofs CoreBasics HistorySpec CoreHistory CoreBounds DeviceSpec RefineBase RefineSteps.
Import ListNotations.
Local Open Scope N_scope.

(* ---- one cycle passes ---- *)

Definition tickK (d : device) (K : cnts) : cnts :=
  mkCnts (fun b => n_bank K b + b2N (bank_acts b d)) (fun b => n_bpre K b + b2N (bank_idles b d))
    (n_act K + b2N (rank_acts d)) (n_pre K + b2N (rank_idles d))
    (n_pda K + b2N (mode_is ActPd d)) (n_pdp K + b2N (mode_is PrePd d))
    (n_sref K + b2N (mode_is SelfRef d)) (n_dsm K + b2N (mode_is DeepSleep d)).

Lemma closed_idle bs b sb : forallb is_closed bs = true -> nth_error bs b = Some sb -> busy sb = false.
Proof.
  rewrite forallb_nth. intros H Hb. specialize (H b sb Hb). unfold is_closed in H. unfold busy.
  destruct (sb_state sb); auto; discriminate.
Qed.

(* A closed bank in every mode but up and active power-down. *)
Lemma ok_mode_closed ps d : dev_ok ps d -> dv_mode d <> Up -> dv_mode d <> ActPd ->
  forallb is_closed (dv_banks d) = true.
Proof.
  unfold dev_ok. intros O H1 H2.
  destruct (dv_mode d); try congruence; destruct (dv_pend d) as [[x []]|]; tauto.
Qed.

Lemma tick_rel p now n rk d K : now + 1 < two64 -> Rel p now n rk d K -> Rel p (now + 1) n rk d (tickK d K).
Proof.
  intros Ht R. pose proof (rl_ok _ _ _ _ _ _ R) as O.
  assert (dv_mode d <> Up -> dv_mode d <> ActPd -> forallb is_closed (dv_banks d) = true) as OC
    by (apply (ok_mode_closed _ _ O)).
  destruct R as [rl_len0 rl_bank0 rl_mem0 rl_act0 rl_pda0 rl_pdp0 rl_sref0 rl_dsm0 rl_end0 rl_ok0 rl_bsum0 rl_sum0].
  constructor; auto; cbn [tickK n_bank n_bpre n_act n_pre n_pda n_pdp n_sref n_dsm].
  - intros b k sb Hk Hs. pose proof (rl_bank0 b k sb Hk Hs) as B.
    assert (bank_acts b d = busy sb && negb (mode_is ActPd d)) as -> by (unfold bank_acts; rewrite Hs; auto).
    apply brel_tick; auto.
  - apply ivrel_tick; auto.
  - apply ivrel_tick; auto.
  - apply ivrel_tick; auto.
  - eapply ivrel_ext; [apply ivrel_tick; [exact Ht|exact rl_sref0]|reflexivity|].
    unfold mode_is. destruct (dv_mode d); cbn; lia.
  - apply ivrel_tick; auto.
  - intros G. apply rl_end0. lia.
  - intros b Hb. specialize (rl_bsum0 b Hb). destruct rl_len0 as [_ L].
    destruct (nth_error_lt (dv_banks d) b ltac:(lia)) as [sb Hs].
    unfold bank_acts, bank_idles. rewrite Hs. unfold mode_is.
    destruct (dv_mode d) eqn:M; cbn [smode_beq negb andb b2N];
      try (rewrite (closed_idle _ _ _ (OC ltac:(discriminate) ltac:(discriminate)) Hs));
      destruct (busy sb); cbn; lia.
  - unfold rank_acts, rank_idles, mode_is.
    destruct (dv_mode d) eqn:M; cbn [smode_beq negb andb b2N];
      try (rewrite (none_busy _ (OC ltac:(discriminate) ltac:(discriminate))));
      destruct (existsb busy (dv_banks d)); cbn; lia.
Qed.

(* ---- running what is due ---- *)

Lemma settle_upd now b bs : map (settle_bank now) (upd b (settle_bank now) bs) = map (settle_bank now) bs.
Proof.
  apply nth_error_ext. intros j. rewrite !nth_error_map, nth_error_upd.
  destruct (Nat.eqb b j); auto. destruct (nth_error bs j); auto. cbn. f_equal.
  apply settle_bank_idem. lia.
Qed.

Lemma settle_with_banks now b d :
  settle now (with_banks (upd b (settle_bank now) (dv_banks d)) d) = settle now d.
Proof. unfold settle, with_banks; cbn. rewrite settle_upd. reflexivity. Qed.

Lemma qrel_time now q d b sb e : qrel now q d -> nth_error (dv_banks d) b = Some sb ->
  In e (sb_ev b sb) -> now <= fst e.
Proof.
  intros Q Hb He. pose proof (bank_evs_time _ _ _ _ _ Q Hb e He) as Hin.
  destruct Q as [_ _ F]. rewrite Forall_forall in F. auto.
Qed.

Lemma one_event p now n rk d K e q :
  now < two64 -> n < two64 -> Rel p now n rk d K -> qrel now (e :: q) d -> fst e <= now ->
  exists d', Rel p now n (exec_ev p rk e) d' K /\ qrel now q d' /\ settle now d' = settle now d.
Proof.
  intros Ht Hn R Q He. pose proof Q as [[qb [Hq Hp]] Hs Hf].
  assert (fst e = now) as E by (inversion Hf; subst; lia).
  destruct e as [ts x]; cbn in E; subst ts. unfold exec_ev; cbn [fst snd].
  apply tsorted_inv in Hs as [Hs _].
  assert (Forall (fun e => now <= fst e) q) as Hf' by (inversion Hf; auto).
  destruct qb as [|e0 qb].
  - cbn in Hq. apply Permutation_nil in Hp.
    pose proof (bank_evs_nil _ _ Hp) as Hst.
    assert (rank_ev d = [(now, x)] /\ q = []) as [Hr ->].
    { unfold rank_ev in *. destruct (dv_pend d) as [[y m]|]; [|discriminate].
      destruct m, (dv_mode d); try discriminate; injection Hq as <- <- <-; auto. }
    exists (settle now d). split; [apply mode_change; auto|]. split; [|apply settle_settle; lia].
    constructor; auto. exists []. split.
    + unfold rank_ev, settle. unfold rank_ev in Hr. destruct (dv_pend d) as [[y m]|]; [|discriminate].
      assert (y = now) as -> by (destruct m, (dv_mode d); try discriminate; congruence).
      rewrite N.leb_refl. reflexivity.
    + rewrite bank_evs_all_stable; auto.
      intros j sb Hj.
      assert (exists sb0, nth_error (dv_banks d) j = Some sb0 /\
               (sb = settle_bank now sb0 \/ exists y, sb = wake_bank y (settle_bank now sb0))) as [sb0 [H1 H2]].
      { unfold settle in Hj. destruct (dv_pend d) as [[y m]|]; [destruct (y <=? now)|]; cbn in Hj;
          try destruct (dv_mode d); rewrite ?map_map, nth_error_map in Hj;
          destruct (nth_error (dv_banks d) j) as [sb0|]; try discriminate; cbn in Hj; injection Hj as <-;
          exists sb0; split; auto; right; eauto. }
      specialize (Hst j sb0 H1). unfold is_stable, is_closed, is_open in *.
      unfold settle_bank, wake_bank in H2.
      destruct (sb_state sb0) eqn:Z; try discriminate; cbn in H2; rewrite ?Z in H2;
        destruct H2 as [->|[y ->]]; cbn; rewrite ?Z; auto.
  - cbn in Hq. injection Hq as <- ->.
    assert (In (now, x) (bank_evs 0 (dv_banks d))) as Hin
      by (eapply Permutation_in; [exact Hp|left; reflexivity]).
    apply bank_evs_in in Hin as [b [sb [Hb Hev]]]. cbn [Nat.add] in Hev.
    exists (with_banks (upd b (settle_bank now) (dv_banks d)) d).
    split; [eapply bank_event; eauto|]. split; [|apply settle_with_banks].
    constructor; auto. exists qb. split; auto. cbn [with_banks dv_banks].
    pose proof (bank_evs_upd 0 b (dv_banks d) sb (settle_bank now) Hb) as P. cbn [Nat.add] in P.
    assert (sb_ev b (settle_bank now sb) = []) as Z.
    { unfold sb_ev in *. unfold settle_bank. destruct (sb_state sb) eqn:Es; try discriminate;
        injection Hev as -> <-; rewrite N.leb_refl; reflexivity. }
    rewrite Z, Hev in P. cbn [app] in P.
    apply (Permutation_cons_inv (a := (now, x))). rewrite Hp, P. reflexivity.
Qed.

Lemma run_due p now n q rk d K :
  now < two64 -> n < two64 -> Rel p now n rk d K -> qrel now q d ->
  exists d', Rel p now n (fold_left (exec_ev p) (due now q) rk) d' K /\ qrel now (rest now q) d' /\
             settle now d' = settle now d.
Proof.
  intros Ht Hn. revert rk d; induction q as [|e q IH]; intros rk d R Q; cbn [due rest].
  - exists d. auto.
  - destruct (N.leb_spec (fst e) now) as [Hle|Hgt].
    + destruct (one_event p now n rk d K e q) as [d1 [R1 [Q1 S1]]]; auto.
      destruct (IH (exec_ev p rk e) d1 R1 Q1) as [d2 [R2 [Q2 S2]]].
      exists d2. cbn [fold_left]. split; [auto|split; [auto|congruence]].
    + exists d. cbn [fold_left]. auto.
Qed.

Lemma settle_fix p now n rk d K q : Rel p now n rk d K -> qrel now q d ->
  Forall (fun e => now < fst e) q -> settle now d = d.
Proof.
  intros R Q F. rewrite Forall_forall in F.
  assert (map (settle_bank now) (dv_banks d) = dv_banks d) as EB.
  { apply nth_error_ext. intros j. rewrite nth_error_map. destruct (nth_error (dv_banks d) j) as [sb|] eqn:E; auto.
    cbn. f_equal. pose proof (bank_evs_time _ _ _ _ _ Q E) as B. unfold sb_ev in B. unfold settle_bank.
    destruct (sb_state sb) as [| |c|e]; auto.
    - specialize (F _ (B _ (or_introl eq_refl))). cbn in F. destruct (N.leb_spec c now); auto; lia.
    - specialize (F _ (B _ (or_introl eq_refl))). cbn in F. destruct (N.leb_spec e now); auto; lia. }
  unfold settle. rewrite EB. destruct d as [bs m pd]; cbn in *.
  destruct pd as [[x m']|]; auto.
  destruct (N.leb_spec x now); auto. exfalso.
  destruct Q as [[qb [-> _]] _ _]. pose proof (rl_ok _ _ _ _ _ _ R) as O. unfold dev_ok in O; cbn in O.
  assert (exists y, In (x, y) (rank_ev (mkDev bs m (Some (x, m'))))) as [y Hy].
  { unfold rank_ev; cbn. destruct m, m'; try tauto; eexists; left; reflexivity. }
  specialize (F (x, y) (in_or_app _ _ _ (or_intror Hy))). cbn in F. lia.
Qed.

Lemma drain_rel p now n q rk d K :
  now < two64 -> n < two64 -> Rel p now n rk d K -> qrel now q d ->
  let st := r_drain p now (rk, q) in
  Rel p now n (fst st) (settle now d) K /\ qrel now (snd st) (settle now d) /\
  Forall (fun e => now < fst e) (snd st).
Proof.
  intros Ht Hn R Q. unfold r_drain; cbn [fst snd].
  destruct (run_due p now n q rk d K Ht Hn R Q) as [d' [R' [Q' S]]].
  assert (Forall (fun e => now < fst e) (rest now q)) as F.
  { apply Forall_forall. intros e He. eapply rest_gt; eauto. apply Q. }
  rewrite <- S, (settle_fix _ _ _ _ _ _ _ R' Q' F). auto.
Qed.

Lemma qrel_later now now' q d : qrel now q d -> Forall (fun e => now' <= fst e) q -> qrel now' q d.
Proof. intros [Q1 Q2 Q3] F. constructor; auto. Qed.

(* Settled states. *)
Record Sync (p : memspec) (now n : N) (st : rank * events) (d : device) (K : cnts) : Prop := {
  sy_rel : Rel p now n (fst st) d K;
  sy_q : qrel now (snd st) d;
  sy_later : Forall (fun e => now < fst e) (snd st)
}.

Lemma sync_tick p now n st d K : now + 1 < two64 -> n < two64 -> Sync p now n st d K ->
  Sync p (now + 1) n (r_drain p (now + 1) st) (settle (now + 1) d) (tickK d K).
Proof.
  intros Ht Hn [R Q F]. destruct st as [rk q]; cbn [fst snd] in *.
  destruct (drain_rel p (now + 1) n q rk d (tickK d K)) as [R' [Q' F']]; auto.
  - apply tick_rel; auto.
  - eapply qrel_later; eauto. eapply Forall_impl; [|exact F]. cbn; intros; lia.
  - constructor; auto.
Qed.
