(* How far ahead the cores look: bounds on the times of pending implicit
   commands, and what follows once they have all run. *)
From Coq Require Import NArith List Bool Lia Arith.
From Verif Require Import Base Command CoreModel ListFacts QueueProofs CoreBasics HistorySpec CoreHistory CoreBounds GrowProofs.
Import ListNotations.
Local Open Scope N_scope.

(* ---- the times a bank remembers ---- *)

(* L is how far a refresh may end after now. *)
Definition bt (L now : N) (k : bank) : Prop :=
  iv_get_start (bk_act k) <= now /\ bk_latestPre k <= now /\ bk_refreshEnd k <= now + L.

Definition rt (L now : N) (r : rank) : Prop := Forall (bt L now) (rk_banks r).

Lemma bt_weaken L a b k : a <= b -> bt L a k -> bt L b k.
Proof. unfold bt. lia. Qed.

Lemma rt_weaken L a b r : a <= b -> rt L a r -> rt L b r.
Proof. intros H. apply Forall_impl. intros k. now apply bt_weaken. Qed.

Lemma rt_banks L t r r' : rk_banks r' = rk_banks r -> rt L t r -> rt L t r'.
Proof. unfold rt. now intros ->. Qed.

Lemma rt_upd L t b f r : (forall k, bt L t k -> bt L t (f k)) -> rt L t r -> rt L t (rk_upd_bank b f r).
Proof. intros H R. unfold rt; cbn. apply Forall_upd; auto. Qed.

Lemma rt_map L t f r : (forall k, bt L t k -> bt L t (f k)) -> rt L t r -> rt L t (rk_set_banks (map f (rk_banks r)) r).
Proof.
  intros H R. unfold rt; cbn. apply Forall_forall. intros x Hx. apply in_map_iff in Hx as (y & <- & Hy).
  apply H. unfold rt in R. rewrite Forall_forall in R. auto.
Qed.

Lemma start_close t i : iv_get_start (iv_close t i) = iv_get_start i.
Proof. unfold iv_close. destruct (iv_is_open i); reflexivity. Qed.

Lemma start_start t i : iv_get_start (iv_start_at t i) = t.
Proof. reflexivity. Qed.

Lemma start_if_closed t i : iv_get_start i <= t -> iv_get_start (iv_start_if_closed t i) <= t.
Proof. unfold iv_start_if_closed. destruct (iv_is_open i); cbn; try rewrite start_start; auto; lia. Qed.

Ltac bank_step :=
  let k := fresh "k" in intros k (? & ? & ?); unfold bt; cbn;
  repeat match goal with |- context [if ?b then _ else _] => destruct b end; cbn;
  rewrite ?start_close, ?start_start; repeat split; try lia; auto using start_if_closed.

Lemma rt_close_if_idle L t r : rt L t r -> rt L t (close_if_idle t r).
Proof. unfold close_if_idle. destruct (rank_is_active t r); auto. Qed.

Lemma rt_start_if_idle L t r : rt L t r -> rt L t (start_if_idle t r).
Proof. unfold start_if_idle. destruct (rank_is_active t r); auto. Qed.

Lemma rt_pre L t b r : rt L t r -> rt L t (h_pre t b r).
Proof.
  intros R. unfold h_pre. destruct (nth_error (rk_banks r) b) as [k|]; [|exact R].
  destruct (bk_active k); [|exact R]. apply rt_close_if_idle, rt_upd; [|exact R]. bank_step.
Qed.

Lemma rt_fold {A} L t (f : A -> rank -> rank) l r :
  (forall a r, rt L t r -> rt L t (f a r)) -> rt L t r -> rt L t (fold_left (fun r a => f a r) l r).
Proof. intros H. revert r. induction l as [|a l IH]; intros r R; cbn; auto. Qed.

Lemma rt_exec L p t c r : rt L t r -> rt L t (exec_ric p t c r).
Proof.
  intros R. destruct c; cbn [exec_ric].
  - now apply rt_pre.
  - unfold x_refEnd. apply rt_close_if_idle, rt_upd; [|exact R]. bank_step.
  - exact R.
  - unfold x_pdaIn, close_banks. apply rt_map; [|exact R]. bank_step.
  - assert (forall f r0, rk_banks r0 = rk_banks r -> (forall k, bt L t k -> bt L t (f k)) ->
              rt L t (rk_set_banks (map f (rk_banks r0)) r0)) as H.
    { intros f r0 E F. apply rt_map; [exact F|]. exact (rt_banks L t r r0 E R). }
    unfold x_pdaOut. cbv zeta. destruct (ms_std p);
      repeat match goal with |- context [if rank_is_active ?a ?b then _ else _] => destruct (rank_is_active a b)
             | |- context [if existsb ?a ?b then _ else _] => destruct (existsb a b) end;
      try (apply rt_banks with (r := rk_set_banks (map (fun k => if bk_active k then bk_set_act (iv_start_at t (bk_act k)) k else k) (rk_banks r)) r); [reflexivity|apply H; [reflexivity|bank_step]]);
      try (apply H; [reflexivity|bank_step]).
    all: match goal with |- rt _ _ (rk_start_act _ (rk_set_banks (map ?f _) _)) =>
           apply rt_banks with (r := rk_set_banks (map f (rk_banks r)) r); [reflexivity|apply H; [reflexivity|bank_step]] end.
  - unfold x_pdpIn. destruct (ms_std p); try exact R.
    apply rt_banks with (r := close_banks t r); [reflexivity|]. unfold close_banks. apply rt_map; [|exact R]. bank_step.
  - unfold x_pdpOut. destruct (ms_std p); try exact R.
    apply rt_map; [|exact R]. bank_step.
Qed.

Lemma rt_refreshOnBank L kd tm t b r : t + tm < two64 -> tm <= L -> rt L t r -> rt L t (fst (h_refreshOnBank kd tm t b r)).
Proof.
  intros H1 H2 R. unfold h_refreshOnBank; cbn [fst]. rewrite u64_add_small by lia.
  apply rt_upd; [bank_step|]. apply rt_start_if_idle, rt_upd; [|exact R].
  intros k B. unfold bt in *. destruct kd; exact B.
Qed.

Lemma rt_refresh_banks L kd tm t bs r : t + tm < two64 -> tm <= L -> rt L t r -> rt L t (fst (refresh_banks kd tm t bs r)).
Proof.
  intros H1 H2 R. rewrite refresh_banks_eq; cbn [fst].
  apply (rt_fold L t (fun b r => fst (h_refreshOnBank kd tm t b r))); [|exact R]. intros. now apply rt_refreshOnBank.
Qed.

Lemma rt_refAll L p t r : t + ms_tRFC p < two64 -> ms_tRFC p <= L -> rt L t r -> rt L t (fst (h_refAll p t r)).
Proof.
  intros H1 H2 R. destruct (ms_std p) eqn:E;
    [rewrite h_refAll_ddr4 by exact E|rewrite h_refAll_other by congruence..]; cbn [fst].
  - apply (rt_fold L t (fun b r => ddr4_ref_bank t (u64_add t (ms_tRFC p)) b r)); [|exact R].
    intros a r0 R0. unfold ddr4_ref_bank. rewrite u64_add_small by lia. apply rt_upd; [bank_step|exact R0].
  - exact (rt_refresh_banks L K_refAllBank _ t _ r H1 H2 R).
  - exact (rt_refresh_banks L K_refAllBank _ t _ r H1 H2 R).
  - exact (rt_refresh_banks L K_refAllBank _ t _ r H1 H2 R).
  - exact (rt_refresh_banks L K_refAllBank _ t _ r H1 H2 R).
Qed.

Lemma rt_dispatch p c f r r' evs :
  cmd_ts c + tmax p < two64 -> rt (tmax p) (cmd_ts c) r ->
  dispatch p c = A_rank f -> f r = Ok (r', evs) -> rt (tmax p) (cmd_ts c) r'.
Proof.
  intros Ht R Hd Hf. pose proof (tmax_ge p) as Hm. revert Hd Hf.
  assert (forall k b t, bt (tmax p) t k -> bt (tmax p) t (bk_bump b k)) as HB by (intros k b t B; destruct b; exact B).
  unfold dispatch, on_rank, on_bank, on_banks, quiet, quiet_o, h_preAll, h_preSame.
  destruct (cmd_type c) eqn:Et;
    repeat match goal with
           | |- context [match ms_std p with _ => _ end] => destruct (ms_std p) eqn:?
           | |- context [match ms_banksPerGroup p with _ => _ end] => destruct (ms_banksPerGroup p) eqn:?
           | |- context [if ms_m8b p then _ else _] => destruct (ms_m8b p)
           end;
    intros Hd; try discriminate; injection Hd as <-;
    repeat match goal with
           | |- (if ?b then _ else _) = _ -> _ => destruct b
           end; intros Hf; try discriminate.
  all: try (injection Hf as <- <-; apply rt_pre; exact R).
  all: try (injection Hf as <- <-; apply (rt_fold (tmax p) (cmd_ts c) (fun b r => h_pre (cmd_ts c) b r)); [intros; now apply rt_pre|exact R]).
  all: try (injection Hf as <- <-; unfold h_rw; apply rt_upd; [intros; now apply HB|exact R]).
  all: try (unfold h_rwAuto in Hf; destruct (nth_error (rk_banks r) _) as [k|]; injection Hf as <- <-;
            [apply rt_upd; [intros; now apply HB|exact R]|exact R]).
  all: try (unfold h_refSame, h_refPerBank, h_refTwoBanks, h_refDual in Hf;
       match type of Hf with
       | Ok (refresh_banks ?k ?tm ?t ?bs ?r) = Ok (?r', ?e) =>
           pose proof (rt_refresh_banks (tmax p) k tm t bs r ltac:(lia) ltac:(lia) R) as HH;
           destruct (refresh_banks k tm t bs r) as [r1 e1]; injection Hf as <- <-; exact HH
       end).
  all: try (unfold h_srefEntry in Hf;
            pose proof (rt_refAll (tmax p) p (cmd_ts c) r ltac:(lia) ltac:(lia) R) as HH;
            destruct (h_refAll p (cmd_ts c) r) as [r1 e1]; injection Hf as <- <-; exact HH).
  all: try (unfold h_srefExit, h_dsmEntry, h_dsmExit, h_pdaEntry, h_pdaExit, h_pdpEntry, h_pdpExit in Hf;
            destruct (ms_std p), (rk_memState r); try discriminate; injection Hf as <- <-; exact R).
  injection Hf as <- <-. unfold h_act. destruct (ms_std p).
  1: apply rt_banks with (r := rk_upd_bank (N.to_nat (cmd_bank c)) (fun k => bk_set_act (iv_start_at (cmd_ts c) (bk_act k)) (bk_set_active true (bk_bump K_act k))) r); [reflexivity|]; apply rt_upd; [bank_step|exact R].
  all: cbv zeta; apply rt_upd; [bank_step|]; apply rt_start_if_idle, rt_upd; [bank_step|exact R].
Qed.

(* ---- the times of queued commands ---- *)

Lemma earliest_le L p r t : t_rcd p <= L -> ms_tRP p <= L -> t + L < two64 -> rt L t r -> earliest_pd p r <= t + L.
Proof.
  intros H1 H2 H3 R. unfold earliest_pd, rt in *.
  assert (forall e, e <= t + L -> fold_left (fun e k => N.max e (bank_pd_time p k)) (rk_banks r) e <= t + L) as H; [|apply H; lia].
  revert R. induction (rk_banks r) as [|k ks IH]; intros R e He; cbn; [exact He|].
  inversion R as [|? ? (B1 & B2 & B3) R']; subst. apply IH; [exact R'|].
  unfold bank_pd_time.
  assert (u64_add (iv_get_start (bk_act k)) (t_rcd p) <= t + L) by (rewrite u64_add_small; lia).
  assert (u64_add (bk_latestPre k) (ms_tRP p) <= t + L) by (rewrite u64_add_small; lia).
  repeat match goal with |- context [if ?b then _ else _] => destruct b end; lia.
Qed.

Lemma rcd_le p : t_rcd p <= tmax p.
Proof. pose proof (tmax_ge p). unfold t_rcd. destruct (ms_std p); lia. Qed.

Lemma dispatch_events_before p c f r r' evs e :
  cmd_ts c + tmax p < two64 -> rt (tmax p) (cmd_ts c) r ->
  dispatch p c = A_rank f -> f r = Ok (r', evs) -> In e evs -> fst e <= cmd_ts c + tmax p.
Proof.
  intros Ht R Hd Hf. pose proof (tmax_ge p) as Hm.
  assert (forall d, d <= tmax p -> u64_add (cmd_ts c) d <= cmd_ts c + tmax p) as Hadd.
  { intros d Hdm. rewrite u64_add_small; lia. }
  pose proof (earliest_le (tmax p) p r (cmd_ts c) (rcd_le p) ltac:(tauto) Ht R) as Hearly.
  revert Hd Hf.
  unfold dispatch, on_rank, on_bank, on_banks, quiet, quiet_o.
  destruct (cmd_type c) eqn:Et;
    repeat match goal with
           | |- context [match ms_std p with _ => _ end] => destruct (ms_std p) eqn:?
           | |- context [match ms_banksPerGroup p with _ => _ end] => destruct (ms_banksPerGroup p) eqn:?
           | |- context [if ms_m8b p then _ else _] => destruct (ms_m8b p)
           end;
    intros Hd; try discriminate; injection Hd as <-;
    repeat match goal with
           | |- (if ?b then _ else _) = _ -> _ => destruct b
           end; intros Hf He; try discriminate; auto.
  all: try (injection Hf as <- <-; cbn in He; tauto).
  all: try (unfold h_rwAuto in Hf; destruct (nth_error (rk_banks r) _) as [k|] eqn:En;
            injection Hf as <- <-; cbn in He; [|tauto]; destruct He as [<-|[]];
            unfold autopre_time; cbn [fst]; unfold rt in R; rewrite Forall_forall in R;
            destruct (R k (nth_error_In _ _ En)) as (B1 & _ & _);
            apply N.max_lub; [rewrite u64_add_small; lia|apply Hadd; tauto]).
  all: try (unfold h_refSame, h_refPerBank, h_refTwoBanks, h_refDual in Hf;
            rewrite refresh_banks_eq in Hf;
            match type of Hf with Ok (?x, ?y) = _ => assert (evs = y) as -> by congruence end;
            apply in_map_iff in He as [x [<- Hx]]; cbn [fst]; apply Hadd; tauto).
  all: assert (forall x, In x (snd (h_refAll p (cmd_ts c) r)) -> fst x <= cmd_ts c + tmax p) as HA by
      (intros x Hx; destruct (ms_std p) eqn:Es;
       [rewrite h_refAll_ddr4 in Hx by auto|rewrite h_refAll_other in Hx by congruence..];
       cbn [snd] in Hx; apply in_map_iff in Hx as [y [<- Hy]]; cbn [fst]; apply Hadd; tauto).
  all: unfold h_srefEntry in Hf.
  all: try (destruct (h_refAll p (cmd_ts c) r) as [r1 e1]; injection Hf as <- <-; cbn [snd] in HA;
            try (apply in_app_or in He as [He|[<-|[]]]); [apply HA; exact He|cbn [fst]; apply Hadd; tauto]).
  all: try (destruct (h_refAll p (cmd_ts c) r) as [r1 e1]; injection Hf as <- <-; cbn [snd] in HA;
            apply HA; exact He).
  all: unfold h_srefExit, h_dsmEntry, h_dsmExit, h_pdaEntry, h_pdaExit, h_pdpEntry, h_pdpExit in Hf.
  all: destruct (ms_std p), (rk_memState r); try discriminate; injection Hf as <- <-; cbn in He; try tauto;
       destruct He as [<-|[]]; cbn [fst]; apply N.max_lub; lia.
Qed.

(* ---- invariant of the core ---- *)

Record near (p : memspec) (now : N) (s : core) : Prop := {
  nr_ranks : Forall (rt (tmax p) now) (co_ranks s);
  nr_queue : Forall (fun e => fst e <= now + tmax p) (co_queue s)
}.

Lemma entries_rt p L es rs now t :
  now <= t -> tsorted es -> Forall (fun e => now <= fst e /\ fst e <= t) es ->
  Forall (rt L now) rs -> Forall (rt L t) (fold_left (exec_entry p) es rs).
Proof.
  revert rs now; induction es as [|e es IH]; intros rs now Hn Hs F H; cbn [fold_left].
  - eapply Forall_impl; [|exact H]. intros r. apply rt_weaken. auto.
  - apply tsorted_inv in Hs as [S1 S2]. inversion F as [|? ? [F1 F2] F3]; subst.
    apply (IH _ (fst e)); auto.
    + rewrite Forall_forall in *. intros x Hx. specialize (F3 x Hx). specialize (S2 x Hx).
      unfold ts_le in S2. lia.
    + unfold exec_entry. apply Forall_upd.
      * eapply Forall_impl; [|exact H]. intros r. apply rt_weaken. auto.
      * intros r Hr. now apply rt_exec.
Qed.

Lemma process_near p t now s : now <= t -> core_wf now s -> near p now s -> near p t (process_queue p t s).
Proof.
  intros Hn [_ H2 H3] [N1 N2]. rewrite process_eq. constructor; cbn.
  - eapply entries_rt; eauto using due_sorted, due_bounds.
  - rewrite Forall_forall in *. intros e He. 
    assert (In e (co_queue s)) as Hi by (rewrite <- (due_rest t (co_queue s)); apply in_or_app; auto).
    specialize (N2 e Hi). lia.
Qed.

Lemma command_near p c now s s' :
  cmd_ts c + tmax p < two64 -> now <= cmd_ts c -> core_wf now s -> near p now s ->
  do_command p c s = Ok s' -> near p (cmd_ts c) s'.
Proof.
  intros Ht Hn W N Hd. pose proof (process_near p (cmd_ts c) now s Hn W N) as [N1 N2].
  apply do_command_ok in Hd as [[_ ->]|[f [rk [rk' [evs [Ed [En [Ef ->]]]]]]]].
  - constructor; auto.
  - assert (rt (tmax p) (cmd_ts c) rk) as R.
    { rewrite Forall_forall in N1. apply N1. eapply nth_error_In; eauto. }
    constructor; cbn [co_ranks co_queue].
    + apply Forall_upd; auto. intros _ _. eapply rt_dispatch; eauto.
    + rewrite Forall_forall in *. intros e He. apply enqueue_in in He as [[x [Hx ->]]|He]; auto.
      cbn [fst]. eapply dispatch_events_before; eauto.
Qed.

Lemma new_near p : near p 0 (core_new p).
Proof.
  constructor; cbn; [|constructor]. apply Forall_forall. intros r Hr. apply repeat_spec in Hr as ->.
  unfold rt; cbn. apply Forall_forall. intros k Hk. apply repeat_spec in Hk as ->. unfold bt; cbn. lia.
Qed.

Lemma run_near p cs s s' now :
  nondecreasing now (map cmd_ts cs) -> no_overflow p (map cmd_ts cs) -> core_wf now s -> near p now s ->
  run_core p cs s = Ok s' -> near p (final_time now (map cmd_ts cs)) s'.
Proof.
  revert s now; induction cs as [|c cs IH]; intros s now Hn Ho W N H; cbn in *.
  - injection H as <-. exact N.
  - destruct Hn as [H1 H2]. inversion Ho as [|? ? Ho1 Ho2]; subst.
    destruct (do_command p c s) as [s1|s1| |] eqn:E; try discriminate.
    eapply (IH s1 (cmd_ts c)); eauto; [eapply command_wf|eapply command_near]; eauto.
Qed.

(* ---- what a user of the core sees ---- *)

Lemma pending_window p cs s :
  nondecreasing 0 (map cmd_ts cs) -> no_overflow p (map cmd_ts cs) ->
  run_core p cs (core_new p) = Ok s ->
  Forall (fun e => final_time 0 (map cmd_ts cs) <= fst e /\ fst e <= final_time 0 (map cmd_ts cs) + tmax p) (co_queue s).
Proof.
  intros Hn Ho Hr. pose proof (run_core_wf p cs _ s 0 Hn Ho (new_wf p) Hr) as [_ _ W].
  pose proof (run_near p cs _ s 0 Hn Ho (new_wf p) (new_near p) Hr) as [_ N].
  rewrite Forall_forall in *. intros e He. split; auto.
Qed.

Lemma settled_queue p cs s t :
  nondecreasing 0 (map cmd_ts cs) -> no_overflow p (map cmd_ts cs) ->
  run_core p cs (core_new p) = Ok s -> final_time 0 (map cmd_ts cs) + tmax p <= t ->
  is_serializable (fst (window_stats p t s)) = true.
Proof.
  intros Hn Ho Hr Ht. pose proof (pending_window p cs s Hn Ho Hr) as W.
  pose proof (run_core_wf p cs _ s 0 Hn Ho (new_wf p) Hr) as [_ Hs _].
  unfold is_serializable, window_stats; cbn [fst]. rewrite process_eq; cbn [co_queue].
  destruct (rest t (co_queue s)) as [|e q] eqn:E; [reflexivity|]. exfalso.
  assert (In e (rest t (co_queue s))) as Hi by (rewrite E; left; reflexivity).
  pose proof (rest_gt t _ e Hs Hi) as Hg.
  assert (In e (co_queue s)) as Hq by (rewrite <- (due_rest t (co_queue s)); apply in_or_app; auto).
  rewrite Forall_forall in W. specialize (W e Hq). lia.
Qed.
