(* Between implicit commands every count stands still or runs. *)
From Coq Require Import NArith List Bool Lia Arith.
From Verif Require Import Base Command CoreModel ListFacts QueueProofs CoreBasics HistorySpec CoreHistory CoreBounds.
Import ListNotations.
Local Open Scope N_scope.

Lemma iv_grows t t' i : t <= t' -> t' < two64 -> iv_wf t i ->
  iv_count_at t' i = iv_count_at t i \/ iv_count_at t' i = iv_count_at t i + (t' - t).
Proof.
  intros H Ht W. destruct (iv_is_open i) eqn:E.
  - right. pose proof (iv_wf_weaken t t' i H W) as W'. unfold iv_is_open in E.
    destruct (iv_start i) as [s|] eqn:Es; [|discriminate]. destruct (iv_end i) eqn:Ee; [discriminate|].
    rewrite (iv_count_open t' i s), (iv_count_open t i s); auto; try lia.
    unfold iv_wf in W. rewrite Es, Ee in W. lia.
  - left. now rewrite !iv_count_closed.
Qed.

Lemma quiet_due t t' (q : list (N * (nat * ricmd))) : t <= t' -> tsorted q -> (forall e, In e q -> ~ (t < fst e <= t')) -> due t' q = due t q.
Proof.
  intros H S Q. rewrite !due_filter by assumption. apply filter_ext_in. intros e He. specialize (Q e He).
  destruct (N.leb_spec (fst e) t'), (N.leb_spec (fst e) t); try reflexivity; exfalso; try apply Q; lia.
Qed.

(* No implicit command falls due after t and up to t'. *)
Definition quiet (t t' : N) (s : core) : Prop := forall e, In e (co_queue s) -> ~ (t < fst e <= t').

Section Grow.
  Variables (p : memspec) (cs : list Command) (t t' : N) (s : core).
  Hypothesis (Hn : nondecreasing 0 (map cmd_ts cs)) (Ho : no_overflow p (map cmd_ts cs)).
  Hypothesis (Hf : final_time 0 (map cmd_ts cs) <= t) (Ht : t <= t') (Ht' : t' < two64).
  Hypothesis (Hr : run_core p cs (core_new p) = Ok s).
  Hypothesis (Hq : quiet t t' s).

  Lemma grow_facts : core_wf t (process_queue p t s) /\ co_ranks (process_queue p t' s) = co_ranks (process_queue p t s) /\
    sizes_ok p s /\ (forall r, In r (co_ranks (process_queue p t s)) -> dsm_ok p r /\ rank_wf t r).
  Proof using Hn Ho Hf Ht Ht' Hr Hq.
    pose proof (run_core_wf p cs _ s 0 Hn Ho (new_wf p) Hr) as W.
    assert (core_wf t (process_queue p t s)) as Wt by (eapply process_wf; [lia| |exact W]; lia).
    split; [exact Wt|]. split.
    - rewrite !process_eq. cbn [co_ranks]. rewrite (quiet_due t t'); [reflexivity|assumption|apply W|exact Hq].
    - split; [exact (run_core_sizes _ _ _ _ (core_new_sizes p) Hr)|].
      intros r H. split.
      + intros Hs. pose proof (run_no_dsm p cs _ s Hs (new_no_dsm p) Hr) as D.
        apply (process_no_dsm p t) in D. unfold no_dsm in D. rewrite Forall_forall in D. auto.
      + destruct Wt as [Wt _ _]. rewrite Forall_forall in Wt. auto.
  Qed.

  Lemma rank_wf_later r : rank_wf t r -> rank_wf t' r.
  Proof using Ht.
    intros W. destruct W. constructor; intros; try (eapply iv_wf_weaken; [exact Ht|]; eauto).
  Qed.

  Lemma rank_counts_grow r c c' :
    shown_rank (snd (window_stats p t s)) r = Some c -> shown_rank (snd (window_stats p t' s)) r = Some c' ->
    Forall2 (fun x y => y = x \/ y = x + (t' - t)) (shown_counts c) (shown_counts c').
  Proof using Hn Ho Hf Ht Ht' Hr Hq.
    intros Hc Hc'. destruct grow_facts as (W & E & Z & D).
    unfold shown_rank, window_stats in Hc, Hc'; cbn [snd st_rank] in Hc, Hc'. rewrite E in Hc'. rewrite nth_error_map in Hc, Hc'.
    destruct (nth_error (co_ranks (process_queue p t s)) r) as [rk|] eqn:X; [|discriminate].
    cbn in Hc, Hc'. injection Hc as <-. injection Hc' as <-.
    destruct (D rk (nth_error_In _ _ X)) as [Dk Wk]. pose proof (rank_wf_later rk Wk) as Wk'.
    rewrite !shown_counts_rank; auto; try lia. destruct Wk. unfold raw_rank. repeat (apply Forall2_cons; [apply iv_grows; auto|]). apply Forall2_nil.
  Qed.

  Lemma bank_counts_grow r b c c' : (b < ms_banks p)%nat ->
    shown_bank p (snd (window_stats p t s)) r b = Some c -> shown_bank p (snd (window_stats p t' s)) r b = Some c' ->
    Forall2 (fun x y => y = x \/ y = x + (t' - t)) (shown_counts (bs_cycles c)) (shown_counts (bs_cycles c')).
  Proof using Hn Ho Hf Ht Ht' Hr Hq.
    intros Hb Hc Hc'. destruct grow_facts as (W & E & Z & D).
    unfold shown_bank, window_stats in Hc, Hc'; cbn [snd st_bank] in Hc, Hc'. rewrite E in Hc'.
    pose proof (process_sizes p t s Z) as [_ Z1]. rewrite Forall_forall in Z1.
    rewrite nth_error_flat_map in Hc; [|intros x Hx; rewrite map_length; apply Z1; exact Hx|exact Hb].
    rewrite nth_error_flat_map in Hc'; [|intros x Hx; rewrite map_length; apply Z1; exact Hx|exact Hb].
    destruct (nth_error (co_ranks (process_queue p t s)) r) as [rk|] eqn:X; [|discriminate].
    rewrite nth_error_map in Hc, Hc'. fold (bnk b rk) in Hc, Hc'.
    destruct (bnk b rk) as [k|] eqn:Ek; [|discriminate].
    cbn [option_map] in Hc, Hc'. injection Hc as <-. injection Hc' as <-.
    destruct (D rk (nth_error_In _ _ X)) as [Dk Wk]. pose proof (rank_wf_later rk Wk) as Wk'.
    rewrite !shown_counts_bank; auto; try lia. destruct Wk. unfold raw_bank. repeat (apply Forall2_cons; [apply iv_grows; eauto|]). apply Forall2_nil.
  Qed.
End Grow.
