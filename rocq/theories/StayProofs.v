(* The counters of self-refresh and deep sleep entries. *)
From Coq Require Import Arith NArith List Bool Lia ZifyBool ZifyNat ZifyN Sorting.Sorted.
From Verif Require Import Base Command CoreModel ListFacts QueueProofs CoreBasics HistorySpec CoreHistory StaySpec.
Import ListNotations.
Local Open Scope N_scope.

Definition stays (r : rank) : N * N := (rk_n_sref r, rk_n_dsm r).

Lemma stays_fold {A} (f : rank -> A -> rank) l : (forall r a, stays (f r a) = stays r) -> forall r, stays (fold_left f l r) = stays r.
Proof. intros H. induction l as [|a l IH]; intros r; cbn [fold_left]; auto. rewrite IH. apply H. Qed.
Lemma stays_close_if t r : stays (close_if_idle t r) = stays r.
Proof. unfold close_if_idle. destruct (rank_is_active t r); reflexivity. Qed.
Lemma stays_start_if t r : stays (start_if_idle t r) = stays r.
Proof. unfold start_if_idle. destruct (rank_is_active t r); reflexivity. Qed.
Lemma stays_upd b f r : stays (rk_upd_bank b f r) = stays r.
Proof. reflexivity. Qed.
Lemma stays_act p b t r : stays (h_act p b t r) = stays r.
Proof. unfold h_act. destruct (ms_std p); try reflexivity; rewrite stays_upd, stays_start_if; reflexivity. Qed.
Lemma stays_pre t b r : stays (h_pre t b r) = stays r.
Proof.
  unfold h_pre. destruct (nth_error (rk_banks r) b) as [k|]; auto. destruct (bk_active k); auto. cbv zeta.
  rewrite stays_close_if. reflexivity.
Qed.
Lemma stays_refresh_bank k d t b r : stays (fst (h_refreshOnBank k d t b r)) = stays r.
Proof. unfold h_refreshOnBank. cbn [fst]. rewrite stays_upd, stays_start_if. reflexivity. Qed.
(* A refresh queues only ends of refreshes. *)
Definition only_ends (evs : events) : Prop := Forall (fun e => snd e <> RI_sref) evs.
Lemma refresh_banks_stays k d t bs r : stays (fst (refresh_banks k d t bs r)) = stays r /\ only_ends (snd (refresh_banks k d t bs r)).
Proof.
  unfold refresh_banks.
  assert (G : forall acc, only_ends (snd acc) ->
    let res := fold_left (fun acc b => let '(r, evs) := acc in let '(r', e) := h_refreshOnBank k d t b r in (r', evs ++ e)) bs acc in
    stays (fst res) = stays (fst acc) /\ only_ends (snd res)).
  { induction bs as [|b bs IH]; intros [r0 evs] O; cbn [fold_left]; [auto|].
    pose proof (stays_refresh_bank k d t b r0) as S0. destruct (h_refreshOnBank k d t b r0) as [r1 e1] eqn:E1. cbn [fst] in S0.
    destruct (IH (r1, evs ++ e1)) as [S1 O1].
    - unfold h_refreshOnBank in E1. injection E1 as _ <-. cbn [snd] in *. apply Forall_app. split; [exact O|]. constructor; [cbn; discriminate|constructor].
    - cbn [fst] in S1. split; [rewrite S1; exact S0|exact O1]. }
  apply (G (r, [])). constructor.
Qed.
Lemma refAll_stays p t r : stays (fst (h_refAll p t r)) = stays r /\ only_ends (snd (h_refAll p t r)).
Proof.
  unfold h_refAll. cbv zeta.
  destruct (ms_std p).
  1:{ cbn [fst snd]. split.
      - rewrite stays_fold; [reflexivity|]. intros; reflexivity.
      - apply Forall_forall. intros e He. apply in_map_iff in He as (b & <- & _). discriminate. }
  all: destruct (refresh_banks K_refAllBank (ms_tRFC p) t (seq 0 (length (rk_banks r))) r) as [r1 evs] eqn:E;
    pose proof (refresh_banks_stays K_refAllBank (ms_tRFC p) t (seq 0 (length (rk_banks r))) r) as G; rewrite E in G; cbn [fst snd] in *;
    destruct G as [G1 G2]; split; [rewrite <- G1; reflexivity|exact G2].
Qed.

(* What a lambda does to the counters. *)
Lemma exec_stays p t x r : stays (exec_ric p t x r) = (match x with RI_sref => u64_inc (rk_n_sref r) | _ => rk_n_sref r end, rk_n_dsm r).
Proof.
  destruct x as [b|b| | | | | ]; cbn [exec_ric].
  - apply stays_pre.
  - unfold x_refEnd. rewrite stays_close_if. reflexivity.
  - reflexivity.
  - reflexivity.
  - unfold x_pdaOut. destruct (ms_std p); cbv zeta; try reflexivity;
      match goal with |- stays (if ?b then _ else _) = _ => destruct b end; reflexivity.
  - unfold x_pdpIn. destruct (ms_std p); reflexivity.
  - unfold x_pdpOut. destruct (ms_std p); reflexivity.
Qed.

Definition is_sref (e : N * ricmd) : bool := match snd e with RI_sref => true | _ => false end.
Definition waiting (t : N) (q : events) : N := N.of_nat (length (filter (fun e => is_sref e && (fst e <=? t)) q)).
Lemma waiting_cons t e q : waiting t (e :: q) = (if is_sref e && (fst e <=? t) then 1 else 0) + waiting t q.
Proof. unfold waiting. cbn [filter]. destruct (is_sref e && (fst e <=? t)); cbn [length]; lia. Qed.
Lemma waiting_app t a b : waiting t (a ++ b) = waiting t a + waiting t b.
Proof. unfold waiting. rewrite filter_app, app_length. lia. Qed.
Lemma waiting_nil t : waiting t [] = 0.
Proof. reflexivity. Qed.
Lemma waiting_insert t ts x q : waiting t (q_insert ts x q) = waiting t [(ts, x)] + waiting t q.
Proof.
  induction q as [|[ts' y] q IH]; cbn [q_insert]; [rewrite waiting_nil; lia|].
  destruct (ts <? ts'); rewrite !waiting_cons, waiting_nil in *; lia.
Qed.
Lemma waiting_enqueue t evs q : waiting t (r_enqueue evs q) = waiting t evs + waiting t q.
Proof.
  unfold r_enqueue. revert q; induction evs as [|[ts x] evs IH]; intros q; cbn [fold_left fst snd]; [reflexivity|].
  rewrite IH, waiting_insert, !waiting_cons, waiting_nil. lia.
Qed.
Lemma waiting_ends t evs : only_ends evs -> waiting t evs = 0.
Proof.
  induction 1 as [|e evs H _ IH]; [reflexivity|]. rewrite waiting_cons, IH. unfold is_sref. destruct (snd e); try reflexivity. congruence.
Qed.

Lemma exec_due_stays p t l : (forall e, In e l -> fst e <= t) -> forall rk,
  stays (fold_left (exec_ev p) l rk) = (Nat.iter (N.to_nat (waiting t l)) u64_inc (rk_n_sref rk), rk_n_dsm rk).
Proof.
  induction l as [|e l IH]; intros H rk; cbn [fold_left]; [reflexivity|].
  rewrite IH by (intros; apply H; cbn; auto).
  pose proof (exec_stays p (fst e) (snd e) rk) as S0. unfold stays in S0. injection S0 as S1 S2. unfold exec_ev. rewrite S1, S2. f_equal.
  rewrite waiting_cons. assert (fst e <= t) as L by (apply H; cbn; auto). unfold is_sref.
  destruct (snd e); cbn [andb]; try reflexivity.
  destruct (N.leb_spec (fst e) t); [|lia]. replace (N.to_nat (1 + waiting t l)) with (S (N.to_nat (waiting t l))) by lia.
  generalize (N.to_nat (waiting t l)). intros m. induction m as [|m IHm]; [reflexivity|].
  change (u64_inc (Nat.iter m u64_inc (u64_inc (rk_n_sref rk))) = u64_inc (Nat.iter (S m) u64_inc (rk_n_sref rk))). f_equal. exact IHm.
Qed.

(* The number of entries a rank will have counted when everything up to [t] has run. *)
Definition tally (t : N) (st : rstate) : N := (rk_n_sref (fst st) + waiting t (snd st)) mod two64.
Lemma tally_drain p t0 t st : t0 <= t -> tally t (r_drain p t0 st) = tally t st /\ rk_n_dsm (fst (r_drain p t0 st)) = rk_n_dsm (fst st).
Proof.
  intros L. destruct st as [rk q]. unfold r_drain, tally. cbn [fst snd].
  assert (D : forall e, In e (due t0 q) -> fst e <= t) by (intros e He; apply due_le in He; lia).
  pose proof (exec_due_stays p t (due t0 q) D rk) as S0. unfold stays in S0. injection S0 as S1 S2. split; [|exact S2].
  rewrite S1. rewrite <- (due_rest t0 q) at 3. rewrite waiting_app, N.add_assoc.
  assert (I : forall n x, Nat.iter n u64_inc x mod two64 = (x + N.of_nat n) mod two64).
  { induction n as [|n IHn]; intros x; [cbn [Nat.iter nat_rect]; f_equal; lia|].
    change (Nat.iter (S n) u64_inc x) with ((Nat.iter n u64_inc x + 1) mod two64).
    rewrite N.mod_mod by discriminate. rewrite <- N.add_mod_idemp_l, IHn, N.add_mod_idemp_l by discriminate. f_equal. lia. }
  rewrite <- N.add_mod_idemp_l, I, N.add_mod_idemp_l by discriminate. f_equal. lia.
Qed.

(* What a handler does to the counters and the queue. *)
Lemma apply_tally p c t st st' : r_apply p c st = Ok st' ->
  tally t st' = (tally t st + (if is_cmd SREFEN c && ((cmd_ts c + ms_tRFC p) mod two64 <=? t) then 1 else 0)) mod two64 /\
  rk_n_dsm (fst st') = (if is_cmd DSMEN c then u64_inc (rk_n_dsm (fst st)) else rk_n_dsm (fst st)) /\ rk_n_sref (fst st') = rk_n_sref (fst st).
Proof.
  destruct st as [rk q]. unfold r_apply. cbn [fst snd].
  assert (K : forall rk' evs, stays rk' = stays rk -> only_ends evs ->
    tally t (rk', r_enqueue evs q) = (tally t (rk, q) + 0) mod two64 /\ rk_n_dsm rk' = rk_n_dsm rk /\ rk_n_sref rk' = rk_n_sref rk).
  { intros rk' evs H O. unfold stays in H. injection H as H1 H2. unfold tally. cbn [fst snd]. rewrite H1, H2, waiting_enqueue, (waiting_ends t evs O), !N.add_0_r.
    split; [rewrite N.mod_mod by discriminate; reflexivity|auto]. }
  assert (Z : tally t (rk, q) = (tally t (rk, q) + 0) mod two64 /\ rk_n_dsm rk = rk_n_dsm rk /\ rk_n_sref rk = rk_n_sref rk).
  { unfold tally. rewrite !N.add_0_r, N.mod_mod by discriminate. auto. }
  assert (B : forall k d ids, stays (fst (refresh_banks k d (cmd_ts c) ids rk)) = stays rk /\ only_ends (snd (refresh_banks k d (cmd_ts c) ids rk)))
    by (intros; apply refresh_banks_stays).
  assert (NE : only_ends []) by constructor.
  assert (P : forall ids, stays (fold_left (fun r b => h_pre (cmd_ts c) b r) ids rk) = stays rk).
  { intros ids. apply stays_fold. intros. apply stays_pre. }
  assert (K2 : forall x : rank * events, stays (fst x) = stays rk /\ only_ends (snd x) ->
    (let (rk', evs) := x in Ok (rk', r_enqueue evs q)) = Ok st' ->
    tally t st' = (tally t (rk, q) + 0) mod two64 /\ rk_n_dsm (fst st') = rk_n_dsm rk /\ rk_n_sref (fst st') = rk_n_sref rk).
  { intros [rk' evs] [H1 H2] E. injection E as <-. apply (K rk' evs); assumption. }
  assert (K3 : forall k off b, stays (fst (h_rwAuto p k off b (cmd_ts c) rk)) = stays rk /\ only_ends (snd (h_rwAuto p k off b (cmd_ts c) rk))).
  { intros. unfold h_rwAuto. destruct (nth_error _ _); cbn [fst snd]; split; auto. constructor; [discriminate|constructor]. }
  assert (K4 : forall x ts, x <> RI_sref -> only_ends [(ts, x)]) by (intros; constructor; [assumption|constructor]).
  unfold dispatch, is_cmd, on_rank, on_bank, on_banks, quiet, quiet_o.
  destruct (cmd_type c); cbn [CmdType_beq andb].
  - destruct (ms_std p); try discriminate. intros E; injection E as <-; exact Z.
  - destruct (Nat.ltb _ _); [|discriminate]. intros E. injection E as <-. apply (K _ []); [reflexivity|exact NE].
  - destruct (Nat.ltb _ _); [|discriminate]. intros E. injection E as <-. apply (K _ []); [reflexivity|exact NE].
  - destruct (Nat.ltb _ _); [|discriminate]. apply K2, K3.
  - destruct (Nat.ltb _ _); [|discriminate]. apply K2, K3.
  - destruct (Nat.ltb _ _); [|discriminate]. intros E. injection E as <-. apply (K _ []); [apply stays_act|exact NE].
  - destruct (Nat.ltb _ _); [|discriminate]. intros E. injection E as <-. apply (K _ []); [apply stays_pre|exact NE].
  - destruct (ms_std p); try discriminate; (destruct (Nat.ltb _ _); [|discriminate]); apply K2, B.
  - destruct (ms_std p); try discriminate. destruct (ms_m8b p); try discriminate. destruct (Nat.ltb _ _); [|discriminate]. destruct (forallb _ _); [|discriminate]. apply K2, B.
  - destruct (ms_std p); try discriminate. destruct (Nat.ltb _ _ && Nat.ltb _ _); [|discriminate]. apply K2, B.
  - destruct (ms_std p); try discriminate. destruct (ms_banksPerGroup p); (destruct (Nat.ltb _ _); [|discriminate]); [discriminate|].
    destruct (forallb _ _); [|discriminate]. intros E. injection E as <-. apply (K _ []); [apply P|exact NE].
  - destruct (ms_std p); try discriminate. destruct (ms_banksPerGroup p); (destruct (Nat.ltb _ _); [|discriminate]); [discriminate|].
    destruct (forallb _ _); [|discriminate]. apply K2, B.
  - intros E. injection E as <-. apply (K _ []); [apply P|exact NE].
  - apply K2, refAll_stays.
  - apply K2. split; [reflexivity|apply K4; discriminate].
  - apply K2. split; [reflexivity|apply K4; discriminate].
  - unfold h_pdaExit. cbv zeta. destruct (ms_std p); try destruct (rk_memState rk); try discriminate; apply (K2 (rk, _)); (split; [reflexivity|apply K4; discriminate]).
  - apply K2. split; [reflexivity|apply K4; discriminate].
  - unfold h_srefEntry. pose proof (refAll_stays p (cmd_ts c) rk) as [S1 S2]. destruct (h_refAll p (cmd_ts c) rk) as [r1 evs]. cbn [fst snd] in *.
    intros E. injection E as <-. unfold stays in S1. injection S1 as S3 S4. unfold tally. cbn [fst snd].
    rewrite S3, S4, waiting_enqueue, waiting_app, (waiting_ends t evs S2), waiting_cons, waiting_nil, N.add_0_r. cbn [is_sref fst snd andb].
    unfold u64_add. split; [|auto]. rewrite N.add_mod_idemp_l by discriminate. f_equal. destruct (_ <=? t); lia.
  - unfold h_srefExit. destruct (rk_memState rk); try discriminate. intros E. injection E as <-. apply (K _ []); [reflexivity|exact NE].
  - destruct (ms_std p); try discriminate. unfold h_dsmEntry. destruct (rk_memState rk); try discriminate. intros E. injection E as <-.
    cbn [fst snd]. unfold tally. cbn [fst snd]. split; [rewrite N.add_0_r, N.mod_mod by discriminate; reflexivity|split; reflexivity].
  - destruct (ms_std p); try discriminate. unfold h_dsmExit. destruct (rk_memState rk); try discriminate. intros E. injection E as <-. apply (K _ []); [reflexivity|exact NE].
  - intros E; injection E as <-; exact Z.
  - discriminate.
Qed.

Lemma drain_small p t st : rk_n_sref (fst st) < two64 -> rk_n_sref (fst (r_drain p t st)) < two64.
Proof.
  intros H. destruct st as [rk q]. unfold r_drain. cbn [fst snd] in *.
  assert (D : forall e, In e (due t q) -> fst e <= t) by (intros e He; apply due_le in He; lia).
  pose proof (exec_due_stays p t (due t q) D rk) as S0. unfold stays in S0. injection S0 as S1 _. rewrite S1.
  destruct (N.to_nat (waiting t (due t q))) as [|n]; [exact H|]. apply N.mod_lt. discriminate.
Qed.

Lemma run_tally p r t cs : Forall (fun c => cmd_ts c <= t) cs -> forall s s' st x, tsorted (co_queue s) -> proj r s = Some st -> run_core p cs s = Ok s' ->
  rk_n_sref (fst st) < two64 -> rk_n_dsm (fst st) = x mod two64 ->
  exists st', proj r s' = Some st' /\ tally t st' = (tally t st + how_many (asleep_by p r t) cs) mod two64 /\
    rk_n_sref (fst st') < two64 /\ rk_n_dsm (fst st') = (x + how_many (deep_entry r) cs) mod two64.
Proof.
  induction 1 as [|c cs L _ IH]; intros s s' st x Q P H SM X; cbn [run_core] in H.
  - injection H as <-. exists st. unfold how_many, tally. cbn [filter length N.of_nat]. rewrite !N.add_0_r, N.mod_mod by discriminate. auto.
  - destruct (do_command p c s) as [s1|s1| |] eqn:E; try discriminate.
    pose proof (do_command_sorted p c s s1 Q E) as Q1.
    assert (exists st1, proj r s1 = Some st1 /\ tally t st1 = (tally t st + how_many (asleep_by p r t) [c]) mod two64 /\
      rk_n_sref (fst st1) < two64 /\ rk_n_dsm (fst st1) = (x + how_many (deep_entry r) [c]) mod two64) as (st1 & P1 & T1 & M1 & D1).
    { destruct (tally_drain p (cmd_ts c) t st L) as [G1 G2]. pose proof (drain_small p (cmd_ts c) st SM) as G3. unfold how_many, asleep_by, deep_entry. cbn [filter].
      destruct (Nat.eqb_spec (N.to_nat (cmd_rank c)) r) as [R|R].
      - destruct (proj_command_same p c s s1 st r Q R P E) as (st1 & A1 & P1). exists st1. split; [exact P1|].
        unfold r_command in A1. apply (apply_tally p c t) in A1 as (A1 & A2 & A3). rewrite G1 in A1. rewrite G2 in A2. rewrite !andb_true_r.
        split; [rewrite A1; f_equal; f_equal; match goal with |- (if ?b then _ else _) = _ => destruct b end; reflexivity|].
        split; [rewrite A3; exact G3|]. rewrite A2, X. destruct (is_cmd DSMEN c); cbn [length N.of_nat].
        + unfold u64_inc, u64_add. rewrite N.add_mod_idemp_l by discriminate. reflexivity.
        + rewrite N.add_0_r. reflexivity.
      - exists (r_drain p (cmd_ts c) st). rewrite (proj_command_other p c s s1 r Q R E), P. split; [reflexivity|]. rewrite G1, G2, !andb_false_r.
        cbn [andb length N.of_nat]. rewrite !N.add_0_r. unfold tally. rewrite N.mod_mod by discriminate. auto. }
    destruct (IH s1 s' st1 _ Q1 P1 H M1 D1) as (st' & P' & T' & M' & D'). exists st'. split; [exact P'|].
    assert (forall f : Command -> bool, how_many f (c :: cs) = how_many f [c] + how_many f cs) as HC
      by (intros f; unfold how_many; cbn [filter]; destruct (f c); cbn [length]; lia).
    rewrite !HC. rewrite T', T1, D'. rewrite !N.add_mod_idemp_l by discriminate. split; [f_equal; lia|]. split; [exact M'|f_equal; lia].
Qed.

Lemma stay_counters p cs s t r : (r < ms_ranks p)%nat -> run_core p cs (core_new p) = Ok s -> Forall (fun c => cmd_ts c <= t) cs ->
  exists rk, nth_error (co_ranks (fst (window_stats p t s))) r = Some rk /\
    rk_n_sref rk = how_many (asleep_by p r t) cs mod two64 /\ rk_n_dsm rk = how_many (deep_entry r) cs mod two64.
Proof.
  intros R H F.
  assert (P0 : proj r (core_new p) = Some (rank_new (ms_banks p), [])).
  { unfold proj, core_new. cbn [co_ranks co_queue]. rewrite nth_error_repeat. destruct (Nat.ltb_spec r (ms_ranks p)); [reflexivity|lia]. }
  assert (Q0 : tsorted (co_queue (core_new p))) by constructor.
  destruct (run_tally p r t cs F _ s _ 0 Q0 P0 H eq_refl eq_refl) as (st & P & T & M & D).
  pose proof (run_core_sorted p cs _ s Q0 H) as Q.
  pose proof (proj_process p t s r Q) as PP. rewrite P in PP. cbn [option_map] in PP.
  destruct (tally_drain p t t st (N.le_refl _)) as [T1 D1]. pose proof (drain_small p t st M) as M1.
  unfold window_stats. cbn [fst]. unfold proj in PP.
  destruct (nth_error (co_ranks (process_queue p t s)) r) as [rk|]; [|discriminate]. apply (f_equal (fun o => match o with Some x => x | None => st end)) in PP. cbv beta iota in PP.
  exists rk. split; [reflexivity|].
  assert (W : waiting t (snd (r_drain p t st)) = 0).
  { destruct st as [rk0 q0]. unfold r_drain. cbn [snd]. unfold waiting.
    assert (q0 = rqueue r (co_queue s)) as ->. { unfold proj in P. destruct (nth_error (co_ranks s) r); [|discriminate]. congruence. }
    rewrite rest_rqueue by exact Q.
    replace (filter _ _) with (@nil (N * ricmd)); [reflexivity|]. symmetry.
    assert (G : forall l : events, (forall e, In e l -> t < fst e) -> filter (fun e => is_sref e && (fst e <=? t)) l = []).
    { induction l as [|e l IHl]; intros Hl; [reflexivity|]. cbn [filter]. assert (t < fst e) by (apply Hl; cbn; auto).
      destruct (N.leb_spec (fst e) t); [lia|]. rewrite andb_false_r. apply IHl. intros; apply Hl; cbn; auto. }
    apply G. intros e He. unfold rqueue in He. apply in_map_iff in He as (x & <- & He). apply filter_In in He as [He _]. cbn [fst]. eapply rest_gt; eauto. }
  unfold tally in T1, T. rewrite W, N.add_0_r, N.mod_small in T1 by exact M1. rewrite <- PP in T1, D1. cbn [fst] in T1, D1. split.
  - rewrite T1, T. cbn [rank_new fst snd rk_n_sref]. rewrite waiting_nil. reflexivity.
  - rewrite D1, D. reflexivity.
Qed.
