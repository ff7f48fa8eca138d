(* Proofs of the history properties: queries, isolation, counters, frames. *)
From Coq Require Import ZArith NArith List Bool Lia ZifyBool ZifyNat ZifyN Sorting.Sorted Permutation.
From Verif Require Import Base Command CoreModel ListFacts QueueProofs CoreBasics HistorySpec.
Import ListNotations.
Local Open Scope N_scope.

(* ------------------------------------------------------------------ *)
(* C04: queries                                                        *)
(* ------------------------------------------------------------------ *)

Lemma window_stats_process p t s :
  window_stats p t s =
  (process_queue p t s, snd (window_stats p t (process_queue p t s))).
Proof.
  unfold window_stats; cbn [snd]. rewrite process_process by lia. reflexivity.
Qed.

Lemma window_stats_later p t1 t2 s :
  t1 <= t2 -> window_stats p t2 (process_queue p t1 s) = window_stats p t2 s.
Proof. intros H. unfold window_stats. rewrite process_process by exact H. reflexivity. Qed.

Lemma nondecreasing_final from ts : nondecreasing from ts -> from <= final_time from ts.
Proof.
  revert from; induction ts as [|t ts IH]; intros from H; cbn in *; [lia|].
  destruct H as [H1 H2]. specialize (IH _ H2). unfold final_time in IH. lia.
Qed.

(* Two states that agree from time t on. *)
Definition agree_from (p : memspec) (t : N) (s1 s2 : core) : Prop :=
  forall t', t <= t' -> process_queue p t' s1 = process_queue p t' s2.

Lemma agree_refl p t s : agree_from p t s s.
Proof. intros t' _; reflexivity. Qed.
Lemma agree_weaken p t t' s1 s2 : t <= t' -> agree_from p t s1 s2 -> agree_from p t' s1 s2.
Proof. intros H A x Hx. apply A. lia. Qed.

Lemma agree_command p c t s1 s2 :
  t <= cmd_ts c -> agree_from p t s1 s2 -> do_command p c s1 = do_command p c s2.
Proof. intros H A. unfold do_command. rewrite (A _ H). reflexivity. Qed.

Lemma agree_query p t t0 s1 s2 :
  t0 <= t -> agree_from p t0 s1 s2 -> agree_from p t (process_queue p t s1) s2.
Proof. intros H A t' Ht'. rewrite process_process by exact Ht'. apply A. lia. Qed.

Lemma agree_stats p t t0 s1 s2 :
  t0 <= t -> agree_from p t0 s1 s2 -> window_stats p t s1 = window_stats p t s2.
Proof. intros H A. unfold window_stats. rewrite (A t H). reflexivity. Qed.

Lemma run_ops_agree p os s1 s2 t0 s a :
  nondecreasing t0 (map op_time os) -> agree_from p t0 s1 s2 ->
  run_ops p os s1 = Ok (s, a) ->
  exists s', run_core p (commands os) s2 = Ok s' /\
             agree_from p (final_time t0 (map op_time os)) s s'.
Proof.
  revert s1 s2 t0 s a; induction os as [|[c|t] os IH]; intros s1 s2 t0 s a Hn A H; cbn in *.
  - injection H as <- <-. exists s2; split; auto.
  - destruct Hn as [H1 H2].
    rewrite (agree_command p c t0 s1 s2 H1 A) in H.
    destruct (do_command p c s2) as [s2'|s2'| |] eqn:E; try discriminate.
    destruct (IH s2' s2' (cmd_ts c) s a H2 (agree_refl _ _ _) H) as [s' [Hs' A']].
    exists s'; split; auto.
  - destruct Hn as [H1 H2].
    destruct (run_ops p os _) as [[s3 r]|[s3 r]| |] eqn:E; try discriminate.
    injection H as <- <-.
    destruct (IH _ s2 t s3 r H2 (agree_query p t t0 s1 s2 H1 A) E) as [s' [Hs' A']].
    exists s'; split; auto.
Qed.

Lemma queries_do_not_matter p os s0 s a t :
  nondecreasing 0 (map op_time os) ->
  run_ops p os s0 = Ok (s, a) ->
  final_time 0 (map op_time os) <= t ->
  exists s', run_core p (commands os) s0 = Ok s' /\
             snd (window_stats p t s) = snd (window_stats p t s').
Proof.
  intros Hn H Ht.
  destruct (run_ops_agree p os s0 s0 0 s a Hn (agree_refl _ _ _) H) as [s' [H1 A]].
  exists s'; split; auto. rewrite (agree_stats p t _ s s' Ht A). reflexivity.
Qed.

Lemma query_repeat p t s :
  snd (window_stats p t (fst (window_stats p t s))) = snd (window_stats p t s).
Proof. cbn [fst window_stats]. unfold window_stats; cbn [fst snd]. rewrite process_process by lia. reflexivity. Qed.

(* Inserting queries never makes a history fail. *)
Lemma run_ops_ok p os s1 s2 t0 s' :
  nondecreasing t0 (map op_time os) -> agree_from p t0 s1 s2 ->
  run_core p (commands os) s2 = Ok s' ->
  exists s a, run_ops p os s1 = Ok (s, a).
Proof.
  revert s1 s2 t0; induction os as [|[c|t] os IH]; intros s1 s2 t0 Hn A H; cbn in *.
  - eauto.
  - destruct Hn as [H1 H2].
    rewrite (agree_command p c t0 s1 s2 H1 A).
    destruct (do_command p c s2) as [s2'|s2'| |] eqn:E; try discriminate.
    eapply IH; eauto using agree_refl.
  - destruct Hn as [H1 H2].
    destruct (IH _ s2 t H2 (agree_query p t t0 s1 s2 H1 A) H) as [s [a Hs]].
    rewrite Hs. eauto.
Qed.

(* ------------------------------------------------------------------ *)
(* C05: scheduling                                                     *)
(* ------------------------------------------------------------------ *)

Lemma filter_insert_at {A} ts ts' (x : A) q : tsorted q ->
  at_time ts (q_insert ts' x q) = at_time ts q ++ (if ts' =? ts then [(ts', x)] else []).
Proof.
  unfold at_time. intros H. rewrite filter_q_insert by exact H. cbn [fst].
  destruct (N.eqb_spec ts' ts) as [->|Hne]; [|rewrite app_nil_r; reflexivity].
  assert (forall l : list (N * A), (forall e, In e l -> fst e = ts) -> q_insert ts x l = l ++ [(ts, x)]) as G.
  { induction l as [|[t' y] l IH]; cbn; intros Hl; auto.
    assert (t' = ts) as -> by (apply (Hl (t', y)); auto).
    rewrite N.ltb_irrefl. f_equal. apply IH. auto. }
  apply G. intros e He. apply filter_In in He as [_ He]. lia.
Qed.

Lemma at_time_app {A} ts (l1 l2 : list (N * A)) : at_time ts (l1 ++ l2) = at_time ts l1 ++ at_time ts l2.
Proof. apply filter_app. Qed.

Lemma log_fold {A} (l log : list (N * A)) :
  fold_left (fun c e => c ++ [(fst e, snd e)]) l log = log ++ l.
Proof.
  revert log; induction l as [|[ts x] l IH]; intros log; cbn [fold_left fst snd].
  - rewrite app_nil_r; reflexivity.
  - rewrite IH, <- app_assoc. reflexivity.
Qed.

Lemma run_sched_due {A} t (os : list (sched_op A)) q log :
  run_sched (RunDue t :: os) q log = run_sched os (rest t q) (log ++ due t q).
Proof. cbn [run_sched]. rewrite ich_process_eq, log_fold. reflexivity. Qed.

Lemma run_sched_fifo {A} (os : list (sched_op A)) q log ts :
  tsorted q ->
  at_time ts (snd (run_sched os q log) ++ fst (run_sched os q log)) =
  at_time ts (log ++ q) ++ at_time ts (requests os).
Proof.
  revert q log; induction os as [|[ts' x|t] os IH]; intros q log H.
  - cbn. rewrite app_nil_r. reflexivity.
  - cbn [run_sched requests]. rewrite IH by (apply q_insert_sorted; auto).
    rewrite !at_time_app, filter_insert_at by auto.
    change ((ts', x) :: requests os) with ([(ts', x)] ++ requests os).
    rewrite at_time_app, <- !app_assoc. do 2 f_equal.
  - rewrite run_sched_due. cbn [requests].
    rewrite IH by (apply rest_sorted; auto).
    rewrite <- app_assoc, due_rest. reflexivity.
Qed.

Lemma run_sched_sorted {A} (os : list (sched_op A)) q log :
  tsorted q -> tsorted (fst (run_sched os q log)).
Proof.
  revert q log; induction os as [|[ts' x|t] os IH]; intros q log H; auto.
  - cbn [run_sched]. apply IH. apply q_insert_sorted; auto.
  - rewrite run_sched_due. apply IH. apply rest_sorted; auto.
Qed.

Lemma run_sched_app {A} (os1 os2 : list (sched_op A)) q log :
  run_sched (os1 ++ os2) q log =
  run_sched os2 (fst (run_sched os1 q log)) (snd (run_sched os1 q log)).
Proof.
  revert q log; induction os1 as [|[ts' x|t] os1 IH]; intros q log; auto.
  - cbn [run_sched app]. apply IH.
  - cbn [app]. rewrite !run_sched_due. apply IH.
Qed.

Lemma run_sched_drain {A} (os : list (sched_op A)) t q log q1 log1 :
  run_sched os [] [] = (q, log) ->
  run_sched (os ++ [RunDue t]) [] [] = (q1, log1) ->
  exists ran, log1 = log ++ ran /\ q = ran ++ q1 /\
    Forall (fun e => fst e <= t) ran /\ Forall (fun e => t < fst e) q1 /\
    StronglySorted (fun a b => fst a <= fst b) ran.
Proof.
  intros H1 H2. rewrite run_sched_app, H1 in H2. cbn [fst snd] in H2.
  rewrite run_sched_due in H2. cbn in H2. injection H2 as <- <-.
  assert (tsorted q) as Hs.
  { replace q with (fst (run_sched os [] [])) by (rewrite H1; reflexivity).
    apply run_sched_sorted; constructor. }
  exists (due t q). repeat split.
  - symmetry; apply due_rest.
  - apply Forall_forall. intros e He. eapply due_le; eauto.
  - apply Forall_forall. intros e He. eapply rest_gt; eauto.
  - rewrite due_filter by auto. apply tsorted_filter. auto.
Qed.

Lemma sorted_app {A} (l1 l2 : list (N * A)) :
  tsorted l1 -> tsorted l2 -> (forall a b, In a l1 -> In b l2 -> fst a <= fst b) ->
  tsorted (l1 ++ l2).
Proof.
  intros H1 H2 H. induction l1 as [|a l1 IH]; cbn; auto.
  apply tsorted_inv in H1 as [H11 H12]. constructor.
  - apply IH; auto. intros x y Hx Hy. apply H; cbn; auto.
  - apply Forall_app; split; auto. apply Forall_forall. intros b Hb. apply H; cbn; auto.
Qed.

Lemma sorted_app_inv {A} (l1 l2 : list (N * A)) :
  tsorted (l1 ++ l2) -> tsorted l1 /\ tsorted l2 /\ (forall a b, In a l1 -> In b l2 -> fst a <= fst b).
Proof.
  induction l1 as [|a l1 IH]; cbn; intros H.
  - repeat split; auto; [constructor|tauto].
  - apply tsorted_inv in H as [H1 H2]. apply IH in H1 as [H11 [H12 H13]].
    apply Forall_app in H2 as [H21 H22]. repeat split; auto.
    + constructor; auto.
    + intros x y [<-|Hx] Hy; auto. rewrite Forall_forall in H22. apply H22; auto.
Qed.

Lemma run_sched_time_order {A} (os : list (sched_op A)) q log now :
  not_in_the_past now os -> tsorted (log ++ q) ->
  Forall (fun e => fst e <= now) log ->
  tsorted (snd (run_sched os q log) ++ fst (run_sched os q log)).
Proof.
  revert q log now; induction os as [|[ts' x|t] os IH]; intros q log now H Hs Hl; auto.
  - cbn [run_sched]. destruct H as [H1 H2]. apply (IH _ _ now); auto.
    apply sorted_app_inv in Hs as [S1 [S2 S3]]. apply sorted_app; auto.
    + apply q_insert_sorted; auto.
    + intros a b Ha Hb. apply q_insert_in in Hb as [->|Hb]; auto.
      cbn. rewrite Forall_forall in Hl. specialize (Hl _ Ha). lia.
  - rewrite run_sched_due. apply (IH _ _ (N.max now t)); auto.
    + rewrite <- app_assoc, due_rest. exact Hs.
    + apply Forall_app; split.
      * eapply Forall_impl; [|exact Hl]. cbn; intros; lia.
      * apply Forall_forall. intros e He. apply due_le in He. lia.
Qed.

(* ------------------------------------------------------------------ *)
(* C06: ranks                                                          *)
(* ------------------------------------------------------------------ *)

Definition r_agree (p : memspec) (t : N) (a b : rstate) : Prop :=
  forall t', t <= t' -> r_drain p t' a = r_drain p t' b.

Lemma r_agree_command p c t a b :
  t <= cmd_ts c -> r_agree p t a b -> r_command p c a = r_command p c b.
Proof. intros H A. unfold r_command. rewrite (A _ H). reflexivity. Qed.

(* A command that succeeds on the projection of one core succeeds on any core
   with an agreeing projection. *)
Lemma do_command_from_proj p c s st st' r :
  tsorted (co_queue s) -> N.to_nat (cmd_rank c) = r ->
  proj r s = Some st -> r_command p c st = Ok st' ->
  exists s', do_command p c s = Ok s' /\ proj r s' = Some st'.
Proof.
  intros Hq Hr Hp H.
  pose proof (proj_process p (cmd_ts c) s r Hq) as HP. rewrite Hp in HP. cbn in HP.
  pose proof (process_sorted p (cmd_ts c) s Hq) as Hq1.
  unfold do_command. unfold r_command, r_apply in H.
  destruct (dispatch p c) as [| | |f]; try discriminate.
  - injection H as <-. eexists; split; [reflexivity|]. exact HP.
  - cbn [co_ranks co_queue co_last]. rewrite Hr.
    unfold proj in HP.
    destruct (nth_error (co_ranks (process_queue p (cmd_ts c) s)) r) as [rk|] eqn:En; [|discriminate].
    assert (HP1 : r_drain p (cmd_ts c) st = (rk, rqueue r (co_queue (process_queue p (cmd_ts c) s))))
      by congruence.
    rewrite HP1 in H; cbn [fst snd] in H.
    destruct (f rk) as [[rk' evs]|[rk' evs]| |]; try discriminate.
    injection H as <-. eexists; split; [reflexivity|].
    unfold proj; cbn [co_ranks co_queue]. rewrite nth_error_upd, Nat.eqb_refl, En; cbn [option_map].
    rewrite rqueue_enqueue, Nat.eqb_refl by auto. reflexivity.
Qed.

Lemma run_core_rank p r cs s1 s2 t0 s a b :
  nondecreasing t0 (map cmd_ts cs) ->
  tsorted (co_queue s1) -> tsorted (co_queue s2) ->
  proj r s1 = Some a -> proj r s2 = Some b -> r_agree p t0 a b ->
  run_core p cs s1 = Ok s ->
  exists s' a' b', run_core p (filter (to_rank r) cs) s2 = Ok s' /\
     proj r s = Some a' /\ proj r s' = Some b' /\
     tsorted (co_queue s) /\ tsorted (co_queue s') /\
     r_agree p (final_time t0 (map cmd_ts cs)) a' b'.
Proof.
  revert s1 s2 t0 a b; induction cs as [|c cs IH]; intros s1 s2 t0 a b Hn S1 S2 P1 P2 A H; cbn in *.
  - injection H as <-. exists s2, a, b. repeat split; auto.
  - destruct Hn as [H1 H2].
    destruct (do_command p c s1) as [s1'|s1'| |] eqn:E; try discriminate.
    assert (tsorted (co_queue s1')) as S1' by exact (do_command_sorted p c s1 s1' S1 E).
    destruct (to_rank r c) eqn:Er; unfold to_rank in Er.
    + apply Nat.eqb_eq in Er.
      destruct (proj_command_same p c s1 s1' a r S1 Er P1 E) as [a' [Ha' P1']].
      rewrite (r_agree_command p c t0 a b H1 A) in Ha'.
      destruct (do_command_from_proj p c s2 b a' r S2 Er P2 Ha') as [s2' [E2 P2']].
      cbn [run_core]. rewrite E2.
      eapply IH; [exact H2|exact S1'| |exact P1'|exact P2'| |exact H].
      * exact (do_command_sorted p c s2 s2' S2 E2).
      * intros t' _; reflexivity.
    + apply Nat.eqb_neq in Er.
      pose proof (proj_command_other p c s1 s1' r S1 Er E) as P1'.
      rewrite P1 in P1'. cbn in P1'.
      eapply IH; [exact H2|exact S1'|exact S2|exact P1'|exact P2| |exact H].
      intros t' Ht'. rewrite r_drain_drain by exact Ht'. apply A. lia.
Qed.

(* What getWindowStats shows of rank r is a function of the projection. *)
Lemma shown_rank_proj p t s r : tsorted (co_queue s) ->
  shown_rank (snd (window_stats p t s)) r =
  option_map (fun a => rank_window p t (fst (r_drain p t a))) (proj r s).
Proof.
  intros H. unfold shown_rank, window_stats; cbn [snd st_rank].
  rewrite nth_error_map.
  pose proof (proj_process p t s r H) as P. unfold proj in P at 1.
  destruct (proj r s) as [a|]; cbn in P |- *;
    destruct (nth_error (co_ranks (process_queue p t s)) r) as [rk|]; try discriminate; auto.
  injection P as P. cbn. unfold r_drain; cbn. rewrite <- P. reflexivity.
Qed.

Lemma nth_error_flat_map {A B} (f : A -> list B) n l i j :
  (forall x, In x l -> length (f x) = n) -> (j < n)%nat ->
  nth_error (flat_map f l) (i * n + j) =
  match nth_error l i with Some x => nth_error (f x) j | None => None end.
Proof.
  intros Hl Hj. revert i; induction l as [|x l IH]; intros i; cbn [flat_map].
  - assert (forall m, nth_error (@nil B) m = None) as E by (destruct m; reflexivity).
    rewrite E. destruct i; reflexivity.
  - assert (length (f x) = n) as Hx by (apply Hl; cbn; auto).
    destruct i as [|i]; cbn [nth_error].
    + cbn. apply nth_error_app1. lia.
    + rewrite nth_error_app2 by (cbn; lia). rewrite Hx.
      replace (S i * n + j - n)%nat with (i * n + j)%nat by (cbn; lia).
      apply IH. intros y Hy. apply Hl; cbn; auto.
Qed.

Lemma shown_bank_proj p t s r b : tsorted (co_queue s) -> sizes_ok p s -> (b < ms_banks p)%nat ->
  shown_bank p (snd (window_stats p t s)) r b =
  match proj r s with
  | None => None
  | Some a => let rk := fst (r_drain p t a) in
              option_map (bank_window p t rk) (nth_error (rk_banks rk) b)
  end.
Proof.
  intros H Hz Hb. unfold shown_bank, window_stats; cbn [snd st_bank].
  pose proof (process_sizes p t s Hz) as [_ Hz2]. rewrite Forall_forall in Hz2.
  rewrite nth_error_flat_map.
  2:{ intros x Hx. rewrite map_length. apply Hz2. exact Hx. }
  2:{ exact Hb. }
  pose proof (proj_process p t s r H) as P. unfold proj in P at 1.
  destruct (proj r s) as [a|]; cbn in P |- *;
    destruct (nth_error (co_ranks (process_queue p t s)) r) as [rk|]; try discriminate; auto.
  injection P as P. cbn. rewrite nth_error_map. unfold r_drain; cbn. rewrite <- P. reflexivity.
Qed.

Lemma rank_isolation p r cs s t :
  (r < ms_ranks p)%nat ->
  nondecreasing 0 (map cmd_ts cs) -> final_time 0 (map cmd_ts cs) <= t ->
  run_core p cs (core_new p) = Ok s ->
  exists s', run_core p (filter (to_rank r) cs) (core_new p) = Ok s' /\
    shown_rank (snd (window_stats p t s)) r = shown_rank (snd (window_stats p t s')) r /\
    (forall b, (b < ms_banks p)%nat ->
      shown_bank p (snd (window_stats p t s)) r b = shown_bank p (snd (window_stats p t s')) r b).
Proof.
  intros Hr Hn Ht H.
  destruct (proj r (core_new p)) as [a|] eqn:P.
  2:{ unfold proj in P; cbn in P. rewrite nth_error_repeat in P.
      destruct (Nat.ltb_spec r (ms_ranks p)); [discriminate|lia]. }
  destruct (run_core_rank p r cs (core_new p) (core_new p) 0 s a a Hn
              (tsorted_nil) (tsorted_nil) P P (fun t' _ => eq_refl) H)
    as [s' [a' [b' [H' [Pa [Pb [Sa [Sb A]]]]]]]].
  exists s'. split; [exact H'|].
  pose proof (run_core_sizes _ _ _ _ (core_new_sizes p) H) as Z.
  pose proof (run_core_sizes _ _ _ _ (core_new_sizes p) H') as Z'.
  split.
  - rewrite !shown_rank_proj, Pa, Pb by auto. cbn [option_map]. rewrite (A t Ht). reflexivity.
  - intros b Hb. rewrite !shown_bank_proj, Pa, Pb by auto. rewrite (A t Ht). reflexivity.
Qed.

(* ------------------------------------------------------------------ *)
(* Bank-level view of the handlers                                     *)
(* ------------------------------------------------------------------ *)

Definition bnk (b : nat) (r : rank) : option bank := nth_error (rk_banks r) b.

Lemma bnk_upd_bank b b' f r :
  bnk b (rk_upd_bank b' f r) = if Nat.eqb b' b then option_map f (bnk b r) else bnk b r.
Proof. unfold bnk, rk_upd_bank; cbn. apply nth_error_upd. Qed.
Lemma bnk_close_if_idle b t r : bnk b (close_if_idle t r) = bnk b r.
Proof. unfold close_if_idle; destruct (rank_is_active t r); reflexivity. Qed.
Lemma bnk_start_if_idle b t r : bnk b (start_if_idle t r) = bnk b r.
Proof. unfold start_if_idle; destruct (rank_is_active t r); reflexivity. Qed.
Lemma bnk_set_act b i r : bnk b (rk_set_act i r) = bnk b r.
Proof. reflexivity. Qed.
Lemma bnk_set_endRefresh b i r : bnk b (rk_set_endRefresh i r) = bnk b r.
Proof. reflexivity. Qed.
Lemma bnk_some b r : (b < nbk r)%nat -> exists k, bnk b r = Some k.
Proof. apply nth_error_lt. Qed.
Lemma bnk_map b f r : bnk b (rk_set_banks (map f (rk_banks r)) r) = option_map f (bnk b r).
Proof. unfold bnk; cbn. apply nth_error_map. Qed.

(* Effect of each handler on the bank it names. *)
Definition b_act (t : N) (k : bank) : bank :=
  bk_set_act (iv_start_at t (bk_act k)) (bk_set_active true (bk_bump K_act k)).
Definition b_pre (t : N) (k : bank) : bank :=
  if bk_active k
  then bk_set_latestPre t (bk_set_act (iv_close t (bk_act k)) (bk_set_active false (bk_bump K_pre k)))
  else k.
Definition b_refresh (k : ckind) (t tend : N) (x : bank) : bank :=
  bk_set_act (iv_start_if_closed t (bk_act x))
    (bk_set_refreshEnd tend (bk_set_active true (bk_bump k x))).
Definition b_refEnd (t : N) (k : bank) : bank :=
  bk_set_act (iv_close t (bk_act k)) (bk_set_active false k).

Lemma bnk_h_act p b' t b r :
  bnk b (h_act p b' t r) = if Nat.eqb b' b then option_map (b_act t) (bnk b r) else bnk b r.
Proof.
  unfold h_act, b_act. destruct (ms_std p);
  rewrite ?bnk_set_act, ?bnk_upd_bank, ?bnk_start_if_idle, ?bnk_upd_bank; auto;
  destruct (Nat.eqb b' b); destruct (bnk b r); reflexivity.
Qed.

Lemma bnk_h_pre t b' b r :
  bnk b (h_pre t b' r) = if Nat.eqb b' b then option_map (b_pre t) (bnk b r) else bnk b r.
Proof.
  unfold h_pre, b_pre. fold (bnk b' r).
  destruct (bnk b' r) as [k|] eqn:E.
  - destruct (bk_active k) eqn:Ea.
    + rewrite bnk_close_if_idle, bnk_upd_bank.
      destruct (Nat.eqb_spec b' b) as [->|]; auto. rewrite E; cbn. rewrite Ea; reflexivity.
    + destruct (Nat.eqb_spec b' b) as [->|]; auto. rewrite E; cbn. rewrite Ea; reflexivity.
  - destruct (Nat.eqb_spec b' b) as [->|]; auto. rewrite E; reflexivity.
Qed.

Lemma bnk_h_refreshOnBank k tm t b' b r :
  bnk b (fst (h_refreshOnBank k tm t b' r)) =
  if Nat.eqb b' b then option_map (b_refresh k t (u64_add t tm)) (bnk b r) else bnk b r.
Proof.
  unfold h_refreshOnBank, b_refresh; cbn [fst].
  rewrite bnk_upd_bank, bnk_start_if_idle, bnk_upd_bank.
  destruct (Nat.eqb b' b); destruct (bnk b r); reflexivity.
Qed.

Lemma bnk_x_refEnd t b' b r :
  bnk b (x_refEnd t b' r) = if Nat.eqb b' b then option_map (b_refEnd t) (bnk b r) else bnk b r.
Proof. unfold x_refEnd. rewrite bnk_close_if_idle, bnk_upd_bank. reflexivity. Qed.

(* A loop applying a bank function to the banks of a list. *)
Fixpoint times_in (b : nat) (bs : list nat) : nat :=
  match bs with [] => 0 | x :: bs' => (if Nat.eqb x b then 1 else 0) + times_in b bs' end%nat.

Lemma iter_swap {A} n (f : A -> A) x : Nat.iter n f (f x) = f (Nat.iter n f x).
Proof. induction n as [|n IH]; [reflexivity|]. cbn [Nat.iter nat_rect]. f_equal. exact IH. Qed.

Lemma bnk_fold (f : bank -> bank) (h : nat -> rank -> rank) bs b r :
  (forall b' r, bnk b (h b' r) = if Nat.eqb b' b then option_map f (bnk b r) else bnk b r) ->
  bnk b (fold_left (fun r b' => h b' r) bs r) = option_map (Nat.iter (times_in b bs) f) (bnk b r).
Proof.
  intros H; revert r; induction bs as [|b' bs IH]; intros r; cbn [fold_left times_in].
  - destruct (bnk b r); reflexivity.
  - rewrite IH, H. destruct (Nat.eqb b' b); cbn [Nat.add]; auto.
    destruct (bnk b r); cbn [option_map]; auto. f_equal. apply iter_swap.
Qed.

Lemma times_in_notin b bs : ~ In b bs -> times_in b bs = 0%nat.
Proof.
  induction bs as [|x bs IH]; cbn; auto. intros H.
  destruct (Nat.eqb_spec x b); [exfalso; auto|]. apply IH. auto.
Qed.

Lemma times_in_nodup b bs : NoDup bs -> In b bs -> times_in b bs = 1%nat.
Proof.
  induction 1 as [|x bs Hx Hn IH]; cbn; [tauto|].
  intros [->|H].
  - rewrite Nat.eqb_refl, times_in_notin; auto.
  - destruct (Nat.eqb_spec x b) as [->|]; [tauto|]. apply IH; auto.
Qed.

Lemma times_in_seq b n : (b < n)%nat -> times_in b (seq 0 n) = 1%nat.
Proof. intros H. apply times_in_nodup; [apply seq_NoDup|]. apply in_seq. lia. Qed.

Lemma same_bank_ids_in p a b : ms_banksPerGroup p <> 0%nat ->
  In b (same_bank_ids p a) <-> same_index p a b = true.
Proof.
  intros Hn. unfold same_bank_ids, same_index. rewrite in_map_iff, andb_true_iff, Nat.eqb_eq, Nat.ltb_lt.
  split.
  - intros [g [<- Hg]]. apply in_seq in Hg.
    pose proof (Nat.mod_upper_bound a (ms_banksPerGroup p) Hn).
    split.
    + rewrite Nat.add_comm, Nat.mod_add, Nat.mod_mod; auto.
    + rewrite Nat.add_comm, Nat.div_add, Nat.div_small; auto. lia.
  - intros [H1 H2]. exists (b / ms_banksPerGroup p)%nat. split.
    + rewrite <- H1. pose proof (Nat.div_mod b (ms_banksPerGroup p) Hn). lia.
    + apply in_seq. split; [apply Nat.le_0_l|exact H2].
Qed.

Lemma same_bank_ids_nodup p a : ms_banksPerGroup p <> 0%nat -> NoDup (same_bank_ids p a).
Proof.
  intros Hn. unfold same_bank_ids. apply FinFun.Injective_map_NoDup; [|apply seq_NoDup].
  intros x y H. apply Nat.add_cancel_r, Nat.mul_cancel_r in H; auto.
Qed.

Lemma times_in_same p a b : ms_banksPerGroup p <> 0%nat ->
  times_in b (same_bank_ids p a) = b2n (same_index p a b).
Proof.
  intros Hn. pose proof (same_bank_ids_in p a b Hn) as H.
  destruct (same_index p a b); cbn.
  - apply times_in_nodup; [apply same_bank_ids_nodup; auto|]. apply H; auto.
  - apply times_in_notin. rewrite H. discriminate.
Qed.

Lemma bnk_refresh_banks k tm t bs b r :
  bnk b (fst (refresh_banks k tm t bs r)) =
  option_map (Nat.iter (times_in b bs) (b_refresh k t (u64_add t tm))) (bnk b r).
Proof.
  rewrite refresh_banks_eq; cbn [fst].
  apply (bnk_fold _ (fun b r => fst (h_refreshOnBank k tm t b r))).
  intros. apply bnk_h_refreshOnBank.
Qed.

Lemma bnk_h_refAll p t b r : (b < nbk r)%nat ->
  bnk b (fst (h_refAll p t r)) = option_map (b_refresh K_refAllBank t (u64_add t (ms_tRFC p))) (bnk b r).
Proof.
  intros Hb.
  destruct (ms_std p) eqn:E.
  1:{ rewrite h_refAll_ddr4 by auto; cbn [fst].
      rewrite (bnk_fold (b_refresh K_refAllBank t (u64_add t (ms_tRFC p)))
                 (fun b r => ddr4_ref_bank t (u64_add t (ms_tRFC p)) b r)).
      - rewrite times_in_seq by auto. rewrite bnk_set_act, bnk_set_endRefresh. reflexivity.
      - intros b' r'. unfold ddr4_ref_bank. rewrite bnk_upd_bank.
        destruct (Nat.eqb b' b); auto. }
  all: rewrite h_refAll_other by congruence; cbn [fst];
       rewrite bnk_set_endRefresh, bnk_refresh_banks, times_in_seq by auto; reflexivity.
Qed.

(* Effect of the implicit commands on one bank. *)
Definition b_exec (p : memspec) (t : N) (c : ricmd) (b : nat) (r : rank) (k : bank) : bank :=
  match c with
  | RI_pre b' => if Nat.eqb b' b then b_pre t k else k
  | RI_refEnd b' => if Nat.eqb b' b then b_refEnd t k else k
  | RI_sref => k
  | RI_pdaIn => bk_set_act (iv_close t (bk_act k)) k
  | RI_pdaOut =>
      match ms_std p with
      | DDR4 => if bk_active k then bk_set_act (iv_start_at t (bk_act k)) k else k
      | _ => if negb (cs_act (bk_counter k) =? 0)
                && (iv_get_end (bk_act k) =? iv_get_start (rk_pda r))
             then bk_set_act (iv_start_at t (bk_act k)) k else k
      end
  | RI_pdpIn => match ms_std p with
                | DDR4 => bk_set_act (iv_close t (bk_act k)) k
                | _ => k
                end
  | RI_pdpOut => match ms_std p with
                 | DDR4 => if bk_active k then bk_set_act (iv_start_at t (bk_act k)) k else k
                 | _ => k
                 end
  end.

Lemma iv_get_start_close t i : iv_get_start (iv_close t i) = iv_get_start i.
Proof. unfold iv_close, iv_get_start. destruct (iv_is_open i); reflexivity. Qed.

Lemma option_map_if {A} (b : bool) (f : A -> A) o :
  option_map (fun k => if b then f k else k) o = if b then option_map f o else o.
Proof. destruct b, o; reflexivity. Qed.

Lemma option_map_id {A} (o : option A) : option_map (fun k => k) o = o.
Proof. destruct o; reflexivity. Qed.

Lemma bnk_exec_ric p t c b r :
  bnk b (exec_ric p t c r) = option_map (b_exec p t c b r) (bnk b r).
Proof.
  destruct c; cbn [exec_ric b_exec].
  - rewrite bnk_h_pre. unfold b_exec. rewrite option_map_if. reflexivity.
  - rewrite bnk_x_refEnd. unfold b_exec. rewrite option_map_if. reflexivity.
  - unfold b_exec. rewrite option_map_id. reflexivity.
  - unfold x_pdaIn, close_banks. rewrite bnk_map. reflexivity.
  - unfold x_pdaOut, resumes, b_exec.
    destruct (ms_std p);
      try (match goal with |- bnk _ (if ?b then _ else _) = _ => destruct b end);
      rewrite ?bnk_set_act; unfold rk_start_act, bnk; cbn;
      rewrite ?nth_error_map, ?iv_get_start_close; reflexivity.
  - unfold x_pdpIn, close_banks, b_exec. destruct (ms_std p); rewrite ?option_map_id; try reflexivity.
    unfold bnk, rk_close_act; cbn. apply nth_error_map.
  - unfold x_pdpOut, b_exec. destruct (ms_std p); rewrite ?option_map_id; try reflexivity.
    unfold bnk; cbn. apply nth_error_map.
Qed.

(* Immediate effect of a command on bank b of the addressed rank. *)
Definition b_cmd (p : memspec) (c : Command) (b : nat) : bank -> bank :=
  let t := cmd_ts c in
  let here := Nat.eqb (addr c) b in
  let only (h : bool) (f : bank -> bank) (k : bank) := if h then f k else k in
  match cmd_type c with
  | ACT => only here (b_act t)
  | PRE => only here (b_pre t)
  | PREA => b_pre t
  | PRESB => only (same_index p (addr c) b) (b_pre t)
  | RD => only here (bk_bump K_reads)
  | WR => only here (bk_bump K_writes)
  | RDA => only here (bk_bump K_readAuto)
  | WRA => only here (bk_bump K_writeAuto)
  | REFA | SREFEN => b_refresh K_refAllBank t (u64_add t (ms_tRFC p))
  | REFB => only here (b_refresh K_refPerBank t (u64_add t (ms_tRFCPB p)))
  | REFSB => only (same_index p (addr c) b) (b_refresh K_refSameBank t (u64_add t (ms_tRFCsb p)))
  | REFP2B => Nat.iter (counted p K_refPerTwoBanks c b)
                (b_refresh K_refPerTwoBanks t (u64_add t (ms_tRFCPB p)))
  | REFDB => Nat.iter (counted p K_refDualBanks c b)
                (b_refresh K_refDualBanks t (u64_add t (ms_tRFCDB p)))
  | _ => fun k => k
  end.

Lemma times_in_2 b x y :
  times_in b [x; y] = (b2n (Nat.eqb x b) + b2n (Nat.eqb y b))%nat.
Proof. cbn. unfold b2n. destruct (Nat.eqb x b), (Nat.eqb y b); reflexivity. Qed.

Lemma iter_b2n {A} (h : bool) (f : A -> A) :
  Nat.iter (b2n h) f = fun k => if h then f k else k.
Proof. destruct h; reflexivity. Qed.

Lemma bnk_dispatch p c f r r' evs b :
  dispatch p c = A_rank f -> f r = Ok (r', evs) -> (b < nbk r)%nat ->
  bnk b r' = option_map (b_cmd p c b) (bnk b r).
Proof.
  intros Hd Hf Hb. revert Hd Hf.
  unfold dispatch, on_rank, on_bank, on_banks, quiet, quiet_o, b_cmd, addr.
  destruct (cmd_type c) eqn:Et;
    repeat match goal with
           | |- context [match ms_std p with _ => _ end] => destruct (ms_std p) eqn:?
           | |- context [match ms_banksPerGroup p with _ => _ end] => destruct (ms_banksPerGroup p) eqn:?
           | |- context [if ms_m8b p then _ else _] => destruct (ms_m8b p)
           end;
    intros Hd; try discriminate; injection Hd as <-;
    repeat match goal with
           | |- (if ?b then _ else _) = _ -> _ => destruct b
           end; intros Hf; try discriminate.
  all: rewrite ?option_map_if, ?option_map_id.
  (* single-bank commands *)
  all: try (injection Hf as <- <-; rewrite ?bnk_h_act, ?bnk_h_pre; reflexivity).
  all: try (injection Hf as <- <-; unfold h_rw; apply bnk_upd_bank).
  all: try (injection Hf as <- <-; unfold h_preAll;
            rewrite (bnk_fold (b_pre (cmd_ts c)) (h_pre (cmd_ts c))) by (intros; apply bnk_h_pre);
            rewrite times_in_seq by exact Hb; reflexivity).
  all: try (injection Hf as <- <-; unfold h_preSame;
            rewrite (bnk_fold (b_pre (cmd_ts c)) (h_pre (cmd_ts c))) by (intros; apply bnk_h_pre);
            rewrite times_in_same by congruence; rewrite iter_b2n, option_map_if; reflexivity).
  all: try (unfold h_rwAuto in Hf; destruct (nth_error (rk_banks r) _) as [k|] eqn:En; 
            injection Hf as <- <-; rewrite ?bnk_upd_bank; try reflexivity;
            destruct (Nat.eqb_spec (N.to_nat (cmd_bank c)) b) as [He|]; auto;
            subst b; unfold bnk; rewrite En; reflexivity).
  all: try (unfold h_refSame, h_refPerBank, h_refTwoBanks, h_refDual in Hf;
       match type of Hf with
       | Ok (refresh_banks ?k ?tm ?t ?bs ?r) = Ok (?r', ?e) =>
           pose proof (bnk_refresh_banks k tm t bs b r) as HH;
           destruct (refresh_banks k tm t bs r) as [r1 e1]; injection Hf as <- <-;
           cbn [fst] in HH; rewrite HH
       end).
  all: try (rewrite times_in_same by congruence; rewrite iter_b2n, option_map_if; reflexivity).
  all: try (change (times_in b [N.to_nat (cmd_bank c)]) with
              ((if Nat.eqb (N.to_nat (cmd_bank c)) b then 1 else 0) + 0)%nat;
            destruct (Nat.eqb (N.to_nat (cmd_bank c)) b); destruct (bnk b r); reflexivity).
  all: try (rewrite times_in_2; unfold counted, is_cmd, addr; rewrite Et; reflexivity).
  all: try (unfold h_srefEntry in Hf).
  all: try (pose proof (bnk_h_refAll p (cmd_ts c) b r Hb) as HH;
            destruct (h_refAll p (cmd_ts c) r) as [r1 e1]; injection Hf as <- <-; exact HH).
  all: unfold h_srefExit, h_dsmEntry, h_dsmExit, h_pdaEntry, h_pdaExit, h_pdpEntry, h_pdpExit in Hf.
  all: destruct (ms_std p); destruct (rk_memState r); try discriminate; injection Hf as <- <-; reflexivity.
Qed.

(* ------------------------------------------------------------------ *)
(* C07: frame                                                          *)
(* ------------------------------------------------------------------ *)

Lemma b_cmd_frame p c b k : footprint p c b = false -> b_cmd p c b k = k.
Proof.
  unfold footprint, b_cmd.
  destruct (cmd_type c) eqn:Et; try discriminate; intros H; try rewrite H; auto.
  - apply orb_false_iff in H as [H1 H2]. unfold counted, is_cmd. rewrite Et, H1, H2. reflexivity.
  - apply orb_false_iff in H as [H1 H2]. unfold counted, is_cmd. rewrite Et, H1, H2. reflexivity.
Qed.

Lemma do_command_ok p c s s' : do_command p c s = Ok s' ->
  (dispatch p c = A_none /\
   s' = mkCore (co_ranks (process_queue p (cmd_ts c) s)) (co_queue (process_queue p (cmd_ts c) s))
          (N.max (cmd_ts c) (co_last (process_queue p (cmd_ts c) s)))) \/
  (exists f rk rk' evs, dispatch p c = A_rank f /\
     nth_error (co_ranks (process_queue p (cmd_ts c) s)) (N.to_nat (cmd_rank c)) = Some rk /\
     f rk = Ok (rk', evs) /\
     s' = mkCore (upd (N.to_nat (cmd_rank c)) (fun _ => rk') (co_ranks (process_queue p (cmd_ts c) s)))
            (enqueue (N.to_nat (cmd_rank c)) evs (co_queue (process_queue p (cmd_ts c) s)))
            (N.max (cmd_ts c) (co_last (process_queue p (cmd_ts c) s)))).
Proof.
  unfold do_command. intros H.
  destruct (dispatch p c) as [| | |f]; try discriminate.
  - left. injection H as <-. auto.
  - right. cbn [co_ranks co_queue co_last] in H.
    destruct (nth_error _ _) as [rk|] eqn:En; [|discriminate].
    destruct (f rk) as [[rk' evs]|[rk' evs]| |] eqn:Ef; try discriminate.
    injection H as <-. exists f, rk, rk', evs. auto.
Qed.

Lemma frame_rank p c s s' r :
  do_command p c s = Ok s' -> r <> N.to_nat (cmd_rank c) ->
  nth_error (co_ranks s') r = nth_error (co_ranks (process_queue p (cmd_ts c) s)) r.
Proof.
  intros H Hr. apply do_command_ok in H as [[_ ->]|[f [rk [rk' [evs [_ [_ [_ ->]]]]]]]]; cbn [co_ranks]; auto.
  apply nth_error_upd_ne; auto.
Qed.

Lemma bank_out p s r b : sizes_ok p s -> (ms_banks p <= b)%nat -> bank_at s r b = None.
Proof.
  intros [_ Z] Hb. unfold bank_at. destruct (nth_error (co_ranks s) r) as [rk|] eqn:E; auto.
  rewrite Forall_forall in Z. specialize (Z rk (nth_error_In _ _ E)). unfold nbk in Z.
  apply nth_error_None. lia.
Qed.

Lemma bank_command p c s s' b : sizes_ok p s ->
  do_command p c s = Ok s' ->
  bank_at s' (N.to_nat (cmd_rank c)) b =
  option_map (if match dispatch p c with A_none => true | _ => false end then (fun k => k) else b_cmd p c b)
             (bank_at (process_queue p (cmd_ts c) s) (N.to_nat (cmd_rank c)) b).
Proof.
  intros Z H.
  pose proof (process_sizes p (cmd_ts c) s Z) as Zp.
  pose proof (do_command_sizes p c s s' Z H) as Zs.
  destruct (Nat.lt_ge_cases b (ms_banks p)) as [Hb|Hb].
  2:{ rewrite !(bank_out p) by auto. reflexivity. }
  apply do_command_ok in H as [[Hd ->]|[f [rk [rk' [evs [Hd [En [Ef ->]]]]]]]]; cbn [co_ranks]; rewrite Hd.
  - unfold bank_at; cbn [co_ranks]. rewrite option_map_id. reflexivity.
  - unfold bank_at; cbn [co_ranks]. rewrite nth_error_upd, Nat.eqb_refl, En. cbn [option_map].
    apply (bnk_dispatch p c f rk rk' evs b Hd Ef).
    destruct Zp as [_ Zp]. rewrite Forall_forall in Zp.
    rewrite (Zp rk (nth_error_In _ _ En)). exact Hb.
Qed.

Lemma frame_bank p c s s' r b : sizes_ok p s ->
  do_command p c s = Ok s' ->
  (r = N.to_nat (cmd_rank c) -> footprint p c b = false) ->
  bank_at s' r b = bank_at (process_queue p (cmd_ts c) s) r b.
Proof.
  intros Z H Hf. destruct (Nat.eq_dec r (N.to_nat (cmd_rank c))) as [->|Hr].
  - rewrite (bank_command p c s s' b Z H). specialize (Hf eq_refl).
    destruct (bank_at _ _ _) as [k|]; cbn; auto. f_equal.
    destruct (match dispatch p c with A_none => true | _ => false end); auto.
    apply b_cmd_frame; auto.
  - unfold bank_at. rewrite (frame_rank p c s s' r H Hr). reflexivity.
Qed.

(* New entries of the queue belong to the addressed rank and to the footprint. *)
Lemma dispatch_events p c f r r' evs e b :
  dispatch p c = A_rank f -> f r = Ok (r', evs) -> In e evs -> ri_bank (snd e) = Some b ->
  footprint p c b = true.
Proof.
  intros Hd Hf. revert Hd Hf.
  unfold dispatch, on_rank, on_bank, on_banks, quiet, quiet_o, footprint, addr.
  destruct (cmd_type c) eqn:Et;
    repeat match goal with
           | |- context [match ms_std p with _ => _ end] => destruct (ms_std p) eqn:?
           | |- context [match ms_banksPerGroup p with _ => _ end] => destruct (ms_banksPerGroup p) eqn:?
           | |- context [if ms_m8b p then _ else _] => destruct (ms_m8b p)
           end;
    intros Hd; try discriminate; injection Hd as <-;
    repeat match goal with
           | |- (if ?b then _ else _) = _ -> _ => destruct b
           end; intros Hf He Hb; try discriminate; auto.
  all: try (injection Hf as <- <-; cbn in He; tauto).
  all: try (unfold h_rwAuto in Hf; destruct (nth_error (rk_banks r) _) as [k|];
            injection Hf as <- <-; cbn in He; [|tauto]; destruct He as [<-|[]]; cbn in Hb;
            injection Hb as <-; apply Nat.eqb_refl).
  all: try (unfold h_refSame in Hf;
            rewrite refresh_banks_eq in Hf; injection Hf as <- <-;
            apply in_map_iff in He as [x [<- Hx]]; cbn in Hb; injection Hb as ->;
            apply same_bank_ids_in; [congruence|assumption]).
  all: try (unfold h_refPerBank, h_refTwoBanks, h_refDual in Hf;
            rewrite refresh_banks_eq in Hf; injection Hf as <- <-;
            cbn in He; repeat destruct He as [<-|He]; try tauto; cbn in Hb; injection Hb as <-;
            unfold p2b_second; rewrite ?Nat.eqb_refl, ?orb_true_r; reflexivity).
  all: unfold h_srefExit, h_dsmEntry, h_dsmExit, h_pdaEntry, h_pdaExit, h_pdpEntry, h_pdpExit in Hf.
  all: destruct (ms_std p), (rk_memState r); try discriminate; injection Hf as <- <-; cbn in He; try tauto;
       destruct He as [<-|[]]; discriminate.
Qed.

Lemma enqueue_in r evs q e : In e (enqueue r evs q) <-> (exists x, In x evs /\ e = (fst x, (r, snd x))) \/ In e q.
Proof.
  unfold enqueue. revert q; induction evs as [|x evs IH]; intros q; cbn [fold_left].
  - split; [auto|]. intros [[x [[] _]]|H]; auto.
  - rewrite IH, q_insert_in. split.
    + intros [[y [Hy ->]]|[->|H]]; auto.
      * left; exists y; cbn; auto.
      * left; exists x; cbn; auto.
    + intros [[y [[<-|Hy] ->]]|H]; auto. left; exists y; auto.
Qed.

Lemma frame_queue p c s s' ts r x :
  do_command p c s = Ok s' -> In (ts, (r, x)) (co_queue s') ->
  In (ts, (r, x)) (co_queue s) \/
  (r = N.to_nat (cmd_rank c) /\ forall b, ri_bank x = Some b -> footprint p c b = true).
Proof.
  intros H Hin.
  assert (forall e, In e (co_queue (process_queue p (cmd_ts c) s)) -> In e (co_queue s)) as Hsub.
  { intros e He. rewrite process_eq in He; cbn in He.
    rewrite <- (due_rest (cmd_ts c) (co_queue s)). apply in_or_app; auto. }
  apply do_command_ok in H as [[_ ->]|[f [rk [rk' [evs [Hd [En [Ef ->]]]]]]]]; cbn [co_queue] in Hin; auto.
  apply enqueue_in in Hin as [[y [Hy He]]|Hin]; auto.
  right. injection He as -> -> ->. split; auto.
  intros b Hb. eapply dispatch_events; eauto.
Qed.

(* ------------------------------------------------------------------ *)
(* C01: counters                                                       *)
(* ------------------------------------------------------------------ *)

Lemma cs_get_bump k k' c :
  cs_get k (cs_bump k' c) = if (match k, k' with
     | K_act, K_act | K_pre, K_pre | K_reads, K_reads | K_writes, K_writes
     | K_refAllBank, K_refAllBank | K_refPerBank, K_refPerBank
     | K_refPerTwoBanks, K_refPerTwoBanks | K_refDualBanks, K_refDualBanks
     | K_refSameBank, K_refSameBank | K_readAuto, K_readAuto | K_writeAuto, K_writeAuto => true
     | _, _ => false end) then u64_inc (cs_get k c) else cs_get k c.
Proof. destruct c, k, k'; reflexivity. Qed.

Definition cnt (k : ckind) (x : bank) : N := cs_get k (bk_counter x).

Lemma cnt_iter_refresh k kr t e n x :
  cnt k (Nat.iter n (b_refresh kr t e) x) = cnt k (Nat.iter n (bk_bump kr) x).
Proof.
  induction n as [|n IH]; [reflexivity|].
  change (cs_get k (cs_bump kr (bk_counter (Nat.iter n (b_refresh kr t e) x))) =
          cs_get k (cs_bump kr (bk_counter (Nat.iter n (bk_bump kr) x)))).
  rewrite !cs_get_bump. unfold cnt in IH. rewrite IH. reflexivity.
Qed.

Lemma cnt_iter_bump k kr n x :
  cnt k (Nat.iter n (bk_bump kr) x) =
  if (match k, kr with
     | K_act, K_act | K_pre, K_pre | K_reads, K_reads | K_writes, K_writes
     | K_refAllBank, K_refAllBank | K_refPerBank, K_refPerBank
     | K_refPerTwoBanks, K_refPerTwoBanks | K_refDualBanks, K_refDualBanks
     | K_refSameBank, K_refSameBank | K_readAuto, K_readAuto | K_writeAuto, K_writeAuto => true
     | _, _ => false end) then Nat.iter n u64_inc (cnt k x) else cnt k x.
Proof.
  induction n as [|n IH].
  - destruct k, kr; reflexivity.
  - change (cnt k (Nat.iter (S n) (bk_bump kr) x)) with
      (cs_get k (cs_bump kr (bk_counter (Nat.iter n (bk_bump kr) x)))).
    rewrite cs_get_bump. unfold cnt in IH |- *. rewrite IH.
    destruct k, kr; reflexivity.
Qed.

Lemma cnt_cmd p c b k x : k <> K_pre ->
  cnt k (b_cmd p c b x) = Nat.iter (counted p k c b) u64_inc (cnt k x).
Proof.
  intros Hk. unfold b_cmd.
  assert (forall y, cnt k (b_pre (cmd_ts c) y) = cnt k y) as Hpre.
  { intros y. unfold b_pre, cnt. destruct (bk_active y); auto. cbn. rewrite cs_get_bump.
    destruct k; auto; congruence. }
  destruct (cmd_type c) eqn:Et;
    try (unfold counted, is_cmd; rewrite Et; cbn [CmdType_beq andb orb b2n];
         repeat match goal with |- context [Nat.eqb ?a ?b] => destruct (Nat.eqb a b) end;
         repeat match goal with |- context [same_index ?a ?b ?c] => destruct (same_index a b c) end;
         rewrite ?Hpre;
         unfold cnt, b_act, b_refresh, bk_bump; cbn; rewrite ?cs_get_bump; destruct k; try congruence; reflexivity).
Qed.

Lemma cnt_exec p t c b r k x : k <> K_pre -> cnt k (b_exec p t c b r x) = cnt k x.
Proof.
  intros Hk. unfold b_exec, b_pre, cnt.
  destruct c;
    repeat match goal with
           | |- context [match ms_std p with _ => _ end] => destruct (ms_std p)
           | |- context [if ?b then _ else _] => destruct b
           end; auto.
  cbn. rewrite cs_get_bump. destruct k; auto; congruence.
Qed.

Lemma iter_inc n x : Nat.iter n u64_inc (x mod two64) = (x + N.of_nat n) mod two64.
Proof.
  induction n as [|n IH].
  - cbn. rewrite N.add_0_r. reflexivity.
  - change (Nat.iter (S n) u64_inc (x mod two64)) with (u64_inc (Nat.iter n u64_inc (x mod two64))).
    rewrite IH, u64_inc_mod. f_equal. lia.
Qed.

Definition cnt_at (k : ckind) (s : core) (r b : nat) : option N := option_map (cnt k) (bank_at s r b).

Lemma cnt_at_entries p k es rs q l q' l' r b : k <> K_pre ->
  cnt_at k (mkCore (fold_left (exec_entry p) es rs) q l) r b = cnt_at k (mkCore rs q' l') r b.
Proof.
  intros Hk. unfold cnt_at, bank_at; cbn [co_ranks].
  revert rs; induction es as [|e es IH]; intros rs; cbn [fold_left]; auto.
  rewrite IH. unfold exec_entry. rewrite nth_error_upd.
  destruct (Nat.eqb (fst (snd e)) r); auto.
  destruct (nth_error rs r) as [rk|]; auto. cbn [option_map].
  fold (bnk b (exec_ric p (fst e) (snd (snd e)) rk)). rewrite bnk_exec_ric.
  unfold bnk. destruct (nth_error (rk_banks rk) b) as [x|]; auto. cbn [option_map].
  rewrite cnt_exec; auto.
Qed.

Lemma cnt_at_process p k t s r b : k <> K_pre ->
  cnt_at k (process_queue p t s) r b = cnt_at k s r b.
Proof. intros Hk. rewrite process_eq. destruct s as [rs q l]. cbn. apply cnt_at_entries. auto. Qed.

Lemma dispatch_none_counted p c k b : dispatch p c = A_none -> counted p k c b = 0%nat.
Proof.
  unfold dispatch, counted, is_cmd, on_rank, on_bank, on_banks.
  destruct (cmd_type c); try discriminate;
    try (destruct (ms_std p); try discriminate; try (destruct (ms_banksPerGroup p); discriminate);
         try (destruct (ms_m8b p); discriminate); destruct k; reflexivity);
    destruct k; reflexivity.
Qed.

Lemma cnt_at_command p k c s s' r b : k <> K_pre -> sizes_ok p s -> do_command p c s = Ok s' ->
  cnt_at k s' r b =
  option_map (Nat.iter (if Nat.eqb (N.to_nat (cmd_rank c)) r then counted p k c b else 0%nat) u64_inc)
             (cnt_at k s r b).
Proof.
  intros Hk Z H. rewrite <- (cnt_at_process p k (cmd_ts c) s r b Hk).
  destruct (Nat.eqb_spec (N.to_nat (cmd_rank c)) r) as [<-|Hr].
  - unfold cnt_at. rewrite (bank_command p c s s' b Z H).
    destruct (bank_at (process_queue p (cmd_ts c) s) _ b) as [x|]; cbn [option_map]; auto.
    f_equal. destruct (dispatch p c) eqn:Ed.
    1:{ rewrite (dispatch_none_counted p c k b Ed). reflexivity. }
    all: apply cnt_cmd; auto.
  - unfold cnt_at, bank_at. rewrite (frame_rank p c s s' r H) by auto.
    destruct (nth_error _ r) as [rk|]; auto. destruct (nth_error (rk_banks rk) b); reflexivity.
Qed.

Lemma cnt_at_run p k cs s s' r b X : k <> K_pre -> sizes_ok p s ->
  cnt_at k s r b = Some (X mod two64) ->
  run_core p cs s = Ok s' ->
  cnt_at k s' r b = Some ((X + counted_in p k r b cs) mod two64).
Proof.
  intros Hk. revert s X; induction cs as [|c cs IH]; intros s X Z HX H.
  - cbn in H. injection H as <-. cbn. rewrite N.add_0_r. exact HX.
  - cbn [run_core] in H. destruct (do_command p c s) as [s1|s1| |] eqn:E; try discriminate.
    pose proof (cnt_at_command p k c s s1 r b Hk Z E) as Hc. rewrite HX in Hc. cbn [option_map] in Hc.
    rewrite iter_inc in Hc.
    rewrite (IH s1 _ (do_command_sizes p c s s1 Z E) Hc H).
    f_equal. f_equal. unfold counted_in; cbn [fold_right].
    destruct (Nat.eqb (N.to_nat (cmd_rank c)) r); lia.
Qed.

Lemma bank_new_at p r b : (r < ms_ranks p)%nat -> (b < ms_banks p)%nat ->
  bank_at (core_new p) r b = Some bank_new.
Proof.
  intros Hr Hb. unfold bank_at, core_new; cbn [co_ranks]. rewrite nth_error_repeat.
  destruct (Nat.ltb_spec r (ms_ranks p)); [|lia]. cbn [rk_banks rank_new].
  rewrite nth_error_repeat. destruct (Nat.ltb_spec b (ms_banks p)); [auto|lia].
Qed.

Lemma shown_counter p t s r b : sizes_ok p s -> (b < ms_banks p)%nat ->
  option_map bs_counter (shown_bank p (snd (window_stats p t s)) r b)
  = option_map bk_counter (bank_at (process_queue p t s) r b).
Proof.
  intros Hz Hb. unfold shown_bank, window_stats; cbn [snd st_bank].
  pose proof (process_sizes p t s Hz) as [_ Hz2]. rewrite Forall_forall in Hz2.
  rewrite nth_error_flat_map.
  2:{ intros x Hx. rewrite map_length. apply Hz2. exact Hx. }
  2:{ exact Hb. }
  unfold bank_at. destruct (nth_error _ r) as [rk|]; auto.
  rewrite nth_error_map. destruct (nth_error (rk_banks rk) b); reflexivity.
Qed.

Lemma counters_equal_history p cs s t r b k :
  k <> K_pre -> (r < ms_ranks p)%nat -> (b < ms_banks p)%nat ->
  run_core p cs (core_new p) = Ok s ->
  exists st, shown_bank p (snd (window_stats p t s)) r b = Some st /\
             cs_get k (bs_counter st) = counted_in p k r b cs mod two64.
Proof.
  intros Hk Hr Hb H.
  assert (cnt_at k (core_new p) r b = Some (0 mod two64)) as H0.
  { unfold cnt_at. rewrite bank_new_at by auto. destruct k; reflexivity. }
  pose proof (cnt_at_run p k cs _ s r b 0 Hk (core_new_sizes p) H0 H) as H1.
  pose proof (run_core_sizes _ _ _ _ (core_new_sizes p) H) as Z.
  rewrite <- (cnt_at_process p k t s r b Hk) in H1.
  pose proof (shown_counter p t s r b Z Hb) as Hs.
  unfold cnt_at in H1. destruct (bank_at (process_queue p t s) r b) as [x|]; [|discriminate].
  destruct (shown_bank p (snd (window_stats p t s)) r b) as [st|]; [|discriminate].
  exists st; split; auto. cbn in Hs, H1. injection Hs as ->. injection H1 as H1. exact H1.
Qed.

(* ------------------------------------------------------------------ *)
(* C11: last command time                                              *)
(* ------------------------------------------------------------------ *)

Lemma last_ts_max {A} (l : list (N * A)) l0 :
  tsorted l -> Forall (fun e => l0 <= fst e) l ->
  last_ts l0 l = fold_right N.max l0 (map fst l).
Proof.
  revert l0; induction l as [|e l IH]; intros l0 H F; auto.
  apply tsorted_inv in H as [H1 H2]. inversion F as [|? ? F1 F2]; subst.
  change (last_ts l0 (e :: l)) with (last_ts (fst e) l). cbn [map fold_right].
  rewrite IH; auto.
  assert (forall a, a <= fst e -> N.max (fst e) (fold_right N.max a (map fst l)) =
                    fold_right N.max (fst e) (map fst l)) as G.
  { intros a Ha. clear IH. clear H1 F F1 F2.
    induction l as [|x l IHl]; cbn; [lia|].
    inversion H2 as [|? ? Hx Hl]; subst. specialize (IHl Hl). unfold ts_le in Hx. lia. }
  rewrite G; auto.
Qed.

(* ------------------------------------------------------------------ *)
(* Forms used by the property statements                               *)
(* ------------------------------------------------------------------ *)

Lemma queries_never_break p os s0 s' :
  nondecreasing 0 (map op_time os) ->
  run_core p (commands os) s0 = Ok s' ->
  exists s answers, run_ops p os s0 = Ok (s, answers).
Proof. intros H1 H2. eapply run_ops_ok; eauto. apply agree_refl. Qed.

Lemma sched_fifo (A : Type) (os : list (sched_op A)) q log ts :
  run_sched os [] [] = (q, log) -> at_time ts (log ++ q) = at_time ts (requests os).
Proof.
  intros H. pose proof (run_sched_fifo os [] [] ts tsorted_nil) as F.
  rewrite H in F. exact F.
Qed.

Lemma sched_time_order (A : Type) (os : list (sched_op A)) q log :
  not_in_the_past 0 os -> run_sched os [] [] = (q, log) ->
  StronglySorted (fun a b => fst a <= fst b) (log ++ q).
Proof.
  intros H1 H2. pose proof (run_sched_time_order os [] [] 0 H1 tsorted_nil (Forall_nil _)) as F.
  rewrite H2 in F. exact F.
Qed.

Lemma process_follows_log p t s :
  let '(q, ran, _) := ich_process (fun ts x l => l ++ [(ts, x)]) t (co_queue s) [] 0 in
  co_queue (process_queue p t s) = q /\
  co_ranks (process_queue p t s) =
    fold_left (fun rs e => upd (fst (snd e)) (exec_ric p (fst e) (snd (snd e))) rs) ran (co_ranks s).
Proof. rewrite ich_process_eq, log_fold, process_eq. split; reflexivity. Qed.

Lemma frame_bank_reachable p cs s0 c s s' r b :
  run_core p cs (core_new p) = Ok s0 -> s = s0 ->
  do_command p c s = Ok s' ->
  (r = N.to_nat (cmd_rank c) -> footprint p c b = false) ->
  bank_at s' r b = bank_at (process_queue p (cmd_ts c) s) r b.
Proof.
  intros H -> . apply frame_bank. eapply run_core_sizes; eauto. apply core_new_sizes.
Qed.
