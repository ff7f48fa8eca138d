(* Precharges are never counted more often than the bank was opened, nor more often
   than a precharge was asked for. *)
From Coq Require Import NArith Arith List Bool Lia.
From Verif Require Import Base ListFacts QueueProofs Command CoreModel HistorySpec CoreBasics CoreHistory PreSpec ExampleCores.
Import ListNotations.
Local Open Scope N_scope.

Definition is_pre (r b : nat) (e : N * (nat * ricmd)) : bool :=
  Nat.eqb (fst (snd e)) r && match snd (snd e) with RI_pre b' => Nat.eqb b' b | _ => false end.
Definition pend (r b : nat) (q : list (N * (nat * ricmd))) : N := N.of_nat (length (filter (is_pre r b) q)).
Definition fine (o c n : N) (x : bank) : Prop :=
  exists m, cnt K_pre x = m mod two64 /\ m + (if bk_active x then 1 else 0) <= o /\ m + n <= c.

Lemma fine_weaken o c n o' c' n' x : o <= o' -> c + n' <= c' + n -> fine o c n x -> fine o' c' n' x.
Proof. intros A B (m & E & F & G). exists m. split; [exact E|]. split; lia. Qed.
Lemma fine_pre o c n t x : fine o c (1 + n) x -> fine o c n (b_pre t x).
Proof.
  intros (m & E & F & G). unfold b_pre. destruct (bk_active x) eqn:A.
  - exists (m + 1). change (bk_active _) with false at 1. cbn iota. split; [|split; lia].
    unfold cnt in E. change (cs_get K_pre (cs_bump K_pre (bk_counter x)) = (m + 1) mod two64). rewrite cs_get_bump, E, u64_inc_mod. reflexivity.
  - exists m. rewrite A. split; [exact E|]. split; lia.
Qed.
Lemma fine_same o c n x y : cnt K_pre y = cnt K_pre x -> bk_active y = bk_active x -> fine o c n x -> fine o c n y.
Proof. intros A B (m & E & F & G). exists m. rewrite A, B. auto. Qed.
Lemma fine_open o c n x y : cnt K_pre y = cnt K_pre x -> fine o c n x -> fine (1 + o) c n y.
Proof. intros A (m & E & F & G). exists m. rewrite A. split; [exact E|]. destruct (bk_active x), (bk_active y); split; lia. Qed.
Lemma fine_shut o c n x y : cnt K_pre y = cnt K_pre x -> bk_active y = false -> fine o c n x -> fine o c n y.
Proof. intros A B (m & E & F & G). exists m. rewrite A, B. split; [exact E|]. destruct (bk_active x); split; lia. Qed.

Lemma fine_exec p t e b rk o c n x :
  fine o c ((match e with RI_pre b' => if Nat.eqb b' b then 1 else 0 | _ => 0 end) + n) x -> fine o c n (b_exec p t e b rk x).
Proof.
  unfold b_exec. destruct e as [b'|b'| | | | | ]; intro H;
    repeat match goal with
           | |- context [match ms_std p with _ => _ end] => destruct (ms_std p)
           end; try exact H.
  1: { destruct (Nat.eqb b' b); [apply fine_pre; exact H|exact H]. }
  1: { destruct (Nat.eqb b' b); [|exact H]. eapply fine_shut; [| |exact H]; reflexivity. }
  all: match goal with |- context [if ?z then _ else _] => destruct z | _ => idtac end; try exact H.
  all: eapply fine_same; [| |exact H]; reflexivity.
Qed.
Lemma fine_entries p r b o c q : forall es rs rk k, nth_error rs r = Some rk -> nth_error (rk_banks rk) b = Some k ->
  fine o c (pend r b (es ++ q)) k ->
  exists rk' k', nth_error (fold_left (exec_entry p) es rs) r = Some rk' /\ nth_error (rk_banks rk') b = Some k' /\ fine o c (pend r b q) k'.
Proof.
  induction es as [|e es IH]; intros rs rk k A B F; cbn [fold_left]; [eauto|].
  unfold pend in F. cbn [app filter] in F. unfold is_pre at 1 in F. destruct (Nat.eqb (fst (snd e)) r) eqn:R.
  - assert (nth_error (exec_entry p rs e) r = Some (exec_ric p (fst e) (snd (snd e)) rk)) as A'
      by (unfold exec_entry; rewrite nth_error_upd, R, A; reflexivity).
    assert (nth_error (rk_banks (exec_ric p (fst e) (snd (snd e)) rk)) b = Some (b_exec p (fst e) (snd (snd e)) b rk k)) as B'
      by (pose proof (bnk_exec_ric p (fst e) (snd (snd e)) b rk) as Q; unfold bnk in Q; rewrite Q, B; reflexivity).
    apply (IH _ _ _ A' B'). apply fine_exec. cbn [andb] in F. unfold pend.
    destruct (snd (snd e)) as [b'| | | | | | ]; try exact F. destruct (Nat.eqb b' b); [|exact F]. cbn [length] in F.
    eapply fine_weaken; [| |exact F]; lia.
  - apply (IH (exec_entry p rs e) rk k); [|exact B|exact F]. unfold exec_entry. rewrite nth_error_upd, R. exact A.
Qed.
Lemma fine_process p t s r b o c k : bank_at s r b = Some k -> fine o c (pend r b (co_queue s)) k ->
  exists k', bank_at (process_queue p t s) r b = Some k' /\ fine o c (pend r b (co_queue (process_queue p t s))) k'.
Proof.
  intros B F. rewrite process_eq. unfold bank_at in *. cbn [co_ranks co_queue].
  destruct (nth_error (co_ranks s) r) as [rk|] eqn:A; [|discriminate]. rewrite <- (due_rest t (co_queue s)) in F.
  destruct (fine_entries p r b o c _ _ _ _ _ A B F) as (rk' & k' & A' & B' & F'). rewrite A'. eauto.
Qed.

Lemma bump_pre k x : k <> K_pre -> cnt K_pre (bk_bump k x) = cnt K_pre x.
Proof. intros H. unfold cnt. change (bk_counter (bk_bump k x)) with (cs_bump k (bk_counter x)). rewrite cs_get_bump. destruct k; congruence. Qed.
Lemma refresh_pre k t e n x : k <> K_pre -> cnt K_pre (Nat.iter n (b_refresh k t e) x) = cnt K_pre x.
Proof. intros H. rewrite cnt_iter_refresh, cnt_iter_bump. destruct k; congruence. Qed.
(* The precharge a read or write brings with it. *)
Definition later_pre (b : nat) (c : Command) : bool := match cmd_type c with RDA | WRA => Nat.eqb (addr c) b | _ => false end.
Definition b2N (b : bool) : N := if b then 1 else 0.
Lemma fine_cmd p c b o cl n x : fine o cl n x -> fine (b2N (opens p b c) + o) (b2N (precharges p b c) + cl) (b2N (later_pre b c) + n) (b_cmd p c b x).
Proof.
  intros F. unfold b_cmd, opens, precharges, later_pre.
  destruct (cmd_type c) eqn:T; cbn [b2N]; try exact F;
    repeat match goal with |- context [b2N (Nat.eqb ?a ?b)] => destruct (Nat.eqb a b) end;
    repeat match goal with |- context [same_index ?a ?b ?c] => destruct (same_index a b c) end; cbn [b2N orb]; try exact F.
  all: try (apply fine_pre; eapply fine_weaken; [| |exact F]; lia).
  all: try (eapply fine_weaken; [| |eapply fine_open; [|exact F]; reflexivity]; lia).
  all: try (eapply fine_weaken; [| |eapply fine_open; [|exact F]; apply (bump_pre _ x); discriminate]; lia).
  all: try (eapply fine_weaken; [| |eapply fine_same; [| |exact F]; [apply bump_pre; discriminate|reflexivity]]; lia).
  1, 2: destruct (Nat.eqb (addr c) b); [|exact F]; eapply fine_same; [apply bump_pre; discriminate|reflexivity|exact F].
  - unfold counted, is_cmd. rewrite T. destruct (Nat.eqb (addr c) b), (Nat.eqb ((addr c + ms_p2bOffset p) mod 16) b); cbn [b2N orb CmdType_beq b2n Nat.add]; try exact F;
      (eapply fine_weaken; [| |eapply fine_open; [|exact F]; apply refresh_pre; discriminate]; lia).
  - unfold counted, is_cmd. rewrite T. destruct (Nat.eqb (addr c) b), (Nat.eqb (N.to_nat (cmd_dbank c)) b); cbn [b2N orb CmdType_beq b2n Nat.add]; try exact F;
      (eapply fine_weaken; [| |eapply fine_open; [|exact F]; apply refresh_pre; discriminate]; lia).
Qed.

(* Only a read or write with auto-precharge leaves a precharge for later, and one only. *)
Definition evs_pre (b : nat) (evs : list (N * ricmd)) : N :=
  N.of_nat (length (filter (fun e => match snd e with RI_pre b' => Nat.eqb b' b | _ => false end) evs)).
Lemma evs_pre_none b (g : nat -> N) (bs : list nat) : evs_pre b (map (fun x => (g x, RI_refEnd x)) bs) = 0.
Proof. unfold evs_pre. induction bs as [|x bs IH]; [reflexivity|exact IH]. Qed.
Lemma dispatch_pre p c f r r' evs b : dispatch p c = A_rank f -> f r = Ok (r', evs) -> evs_pre b evs <= b2N (later_pre b c).
Proof.
  intros Hd Hf. revert Hd Hf.
  assert (evs_pre b (snd (h_refAll p (cmd_ts c) r)) = 0) as HA.
  { destruct (ms_std p) eqn:Es; [rewrite h_refAll_ddr4 by auto|rewrite h_refAll_other by congruence..]; cbn [snd];
      apply (evs_pre_none b (fun _ => _)). }
  unfold dispatch, on_rank, on_bank, on_banks, quiet, quiet_o, later_pre, addr.
  destruct (cmd_type c) eqn:Et;
    repeat match goal with
           | |- context [match ms_std p with _ => _ end] => destruct (ms_std p) eqn:?
           | |- context [match ms_banksPerGroup p with _ => _ end] => destruct (ms_banksPerGroup p) eqn:?
           | |- context [if ms_m8b p then _ else _] => destruct (ms_m8b p)
           end;
    intros Hd; try discriminate; injection Hd as <-;
    repeat match goal with
           | |- (if ?b then _ else _) = _ -> _ => destruct b
           end; intros Hf; try discriminate.
  all: try (injection Hf as <- <-; unfold evs_pre; cbn; lia).
  all: try (unfold h_rwAuto in Hf; destruct (nth_error (rk_banks r) _) as [k|];
            injection Hf as <- <-; unfold evs_pre; cbn; destruct (Nat.eqb _ b); cbn; lia).
  all: try (unfold h_refSame, h_refPerBank, h_refTwoBanks, h_refDual in Hf;
            rewrite refresh_banks_eq in Hf; injection Hf as <- <-;
            rewrite (evs_pre_none b (fun _ => _)); cbn; lia).
  all: try (injection Hf as Hf; rewrite Hf in HA; cbn [snd] in HA; rewrite HA; cbn; lia).
  all: unfold h_srefEntry, h_srefExit, h_dsmEntry, h_dsmExit, h_pdaEntry, h_pdaExit, h_pdpEntry, h_pdpExit in Hf.
  all: try (destruct (ms_std p), (rk_memState r); try discriminate; injection Hf as <- <-; unfold evs_pre; cbn; lia).
  all: destruct (h_refAll p (cmd_ts c) r) as [r1 e1]; injection Hf as <- <-; cbn [snd] in HA; unfold evs_pre in *;
       rewrite filter_app, app_length; cbn; lia.
Qed.
Lemma pend_insert r b e q : pend r b (q_insert (fst e) (snd e) q) = b2N (is_pre r b e) + pend r b q.
Proof.
  destruct e as [t v]. cbn [fst snd]. unfold pend. induction q as [|x q IH]; cbn [q_insert filter]; [destruct (is_pre r b (t, v)); reflexivity|].
  destruct x as [t' v'] eqn:E; rewrite <- E in *; destruct (t <? t') eqn:L; cbn [filter]; destruct (is_pre r b x) eqn:X, (is_pre r b (t, v)) eqn:V; cbn [length b2N] in *; lia.
Qed.
Lemma pend_enqueue r b evs : forall q, pend r b (enqueue r evs q) = evs_pre b evs + pend r b q.
Proof.
  unfold enqueue, evs_pre. induction evs as [|x evs IH]; intros q; [reflexivity|]. cbn [fold_left filter].
  rewrite IH, (pend_insert r b (fst x, (r, snd x))). unfold is_pre. cbn [fst snd]. rewrite Nat.eqb_refl. cbn [andb].
  destruct (snd x) as [b'| | | | | | ]; cbn [b2N length]; try lia. destruct (Nat.eqb b' b); cbn [b2N length]; lia.
Qed.
Lemma pend_other r r' b evs : r' <> r -> forall q, pend r b (enqueue r' evs q) = pend r b q.
Proof.
  intros H. apply Nat.eqb_neq in H. unfold enqueue. induction evs as [|x evs IH]; intros q; [reflexivity|]. cbn [fold_left].
  rewrite IH, (pend_insert r b (fst x, (r', snd x))). unfold is_pre. cbn [fst snd]. rewrite H. reflexivity.
Qed.

Lemma fine_command p c s s' r b o cl k : sizes_ok p s -> do_command p c s = Ok s' -> bank_at s r b = Some k -> fine o cl (pend r b (co_queue s)) k ->
  exists k', bank_at s' r b = Some k' /\
    fine (b2N (Nat.eqb (N.to_nat (cmd_rank c)) r && opens p b c) + o) (b2N (Nat.eqb (N.to_nat (cmd_rank c)) r && precharges p b c) + cl) (pend r b (co_queue s')) k'.
Proof.
  intros Z D B F. destruct (fine_process p (cmd_ts c) s r b o cl k B F) as (k1 & B1 & F1).
  destruct (Nat.eqb_spec (N.to_nat (cmd_rank c)) r) as [E|E]; cbn [andb].
  - pose proof (bank_command p c s s' b Z D) as Q. rewrite E, B1 in Q.
    destruct (do_command_ok _ _ _ _ D) as [[N S]|(f & rk & rk' & evs & G & H & I & S)]; [rewrite N in Q|rewrite G in Q]; cbn [option_map] in Q.
    + exists k1. split; [exact Q|]. subst s'. cbn [co_queue]. eapply fine_weaken; [| |exact F1]; lia.
    + exists (b_cmd p c b k1). split; [exact Q|]. subst s'. cbn [co_queue]. rewrite E, pend_enqueue.
      eapply fine_weaken; [apply N.le_refl| |exact (fine_cmd p c b _ _ _ _ F1)].
      pose proof (dispatch_pre p c f rk rk' evs b G I). lia.
  - exists k1. split; [unfold bank_at in *; rewrite (frame_rank p c s s' r D) by congruence; exact B1|].
    destruct (do_command_ok _ _ _ _ D) as [[N S]|(f & rk & rk' & evs & G & H & I & S)]; subst s'; cbn [co_queue]; [exact F1|].
    rewrite pend_other by exact E. exact F1.
Qed.
Lemma fine_run p r b : forall cs s s' o cl k, sizes_ok p s -> run_core p cs s = Ok s' -> bank_at s r b = Some k -> fine o cl (pend r b (co_queue s)) k ->
  exists k', bank_at s' r b = Some k' /\ fine (amount (opens p b) r cs + o) (amount (precharges p b) r cs + cl) (pend r b (co_queue s')) k'.
Proof.
  induction cs as [|c cs IH]; intros s s' o cl k Z R B F; cbn [run_core] in R.
  - injection R as <-. exists k. auto.
  - destruct (do_command p c s) as [s1| | |] eqn:D; try discriminate.
    destruct (fine_command p c s s1 r b o cl k Z D B F) as (k1 & B1 & F1).
    destruct (IH s1 s' _ _ k1 (do_command_sizes p c s s1 Z D) R B1 F1) as (k' & B' & F'). exists k'. split; [exact B'|].
    eapply fine_weaken; [| |exact F']; unfold amount; cbn [filter];
      destruct (Nat.eqb _ r && opens p b c), (Nat.eqb _ r && precharges p b c); cbn [b2N length]; lia.
Qed.
Theorem precharges_bounded p cs s t r b : (r < ms_ranks p)%nat -> (b < ms_banks p)%nat -> run_core p cs (core_new p) = Ok s ->
  exists st, shown_bank p (snd (window_stats p t s)) r b = Some st /\
    cs_get K_pre (bs_counter st) <= amount (opens p b) r cs /\ cs_get K_pre (bs_counter st) <= amount (precharges p b) r cs.
Proof.
  intros Hr Hb R.
  assert (fine 0 0 (pend r b (co_queue (core_new p))) bank_new) as F0 by (exists 0; split; [reflexivity|split; apply N.le_refl]).
  destruct (fine_run p r b cs _ _ 0 0 _ (core_new_sizes p) R (bank_new_at p r b Hr Hb) F0) as (k & B & F).
  destruct (fine_process p t s r b _ _ k B F) as (k' & B' & m & E & G & H).
  pose proof (shown_counter p t s r b (run_core_sizes _ _ _ _ (core_new_sizes p) R) Hb) as Q. rewrite B' in Q.
  destruct (shown_bank p (snd (window_stats p t s)) r b) as [st|]; [|discriminate]. cbn in Q. injection Q as Q.
  exists st. split; [reflexivity|]. unfold cnt in E. rewrite Q, E.
  assert (m mod two64 <= m) by (apply N.mod_le; discriminate). rewrite !N.add_0_r in *. split; lia.
Qed.

Definition pre_shown (p : memspec) (cs : list Command) (t : N) (r b : nat) : option (N * N) :=
  match run_core p cs (core_new p) with
  | Ok s => option_map (fun st => (cs_get K_pre (bs_counter st), cs_get K_act (bs_counter st))) (shown_bank p (snd (window_stats p t s)) r b)
  | _ => None
  end.
Lemma never_activated : exists p cs s st, run_core p cs (core_new p) = Ok s /\ shown_bank p (snd (window_stats p 20 s)) 0 0 = Some st /\
  cs_get K_act (bs_counter st) < cs_get K_pre (bs_counter st).
Proof.
  exists ex_ddr4, [at_ 0 REFA 0 0; at_ 10 PRE 0 0]. eexists. eexists. split; [vm_compute; reflexivity|]. split; [vm_compute; reflexivity|]. reflexivity.
Qed.

Lemma amount_act p b r cs : (forall c, In c cs -> N.to_nat (cmd_rank c) = r -> opens p b c = true -> cmd_type c = ACT) ->
  amount (opens p b) r cs <= counted_in p K_act r b cs /\ counted_in p K_act r b cs <= N.of_nat (length cs).
Proof.
  unfold amount, counted_in. induction cs as [|c cs IH]; intros H; [split; apply N.le_refl|]. destruct (IH (fun d D => H d (or_intror D))) as [A B].
  specialize (H c (or_introl eq_refl)). cbn [filter fold_right length]. destruct (Nat.eqb_spec (N.to_nat (cmd_rank c)) r) as [E|E]; cbn [andb]; [|split; lia].
  assert (counted p K_act c b <= 1)%nat by (cbn [counted]; destruct (_ && _); cbn; lia). split; [|lia].
  destruct (opens p b c) eqn:O; [|lia]. specialize (H E eq_refl). unfold opens in O. rewrite H in O.
  assert (counted p K_act c b = 1)%nat by (cbn [counted]; unfold is_cmd; rewrite H, O; reflexivity). cbn [length]. lia.
Qed.
Theorem precharges_activations p cs s t r b : (r < ms_ranks p)%nat -> (b < ms_banks p)%nat -> N.of_nat (length cs) < two64 ->
  (forall c, In c cs -> N.to_nat (cmd_rank c) = r -> opens p b c = true -> cmd_type c = ACT) -> run_core p cs (core_new p) = Ok s ->
  exists st, shown_bank p (snd (window_stats p t s)) r b = Some st /\ cs_get K_pre (bs_counter st) <= cs_get K_act (bs_counter st).
Proof.
  intros Hr Hb L H R. destruct (precharges_bounded p cs s t r b Hr Hb R) as (st & S & A & _).
  destruct (counters_equal_history p cs s t r b K_act) as (st' & S' & C); try assumption; [discriminate|].
  assert (st' = st) as -> by congruence. destruct (amount_act p b r cs H) as [D E].
  exists st. split; [exact S|]. rewrite C, N.mod_small; lia.
Qed.
Definition busy_bank : list Command := [at_ 0 ACT 0 1; at_ 5 ACT 0 1; at_ 30 PRE 0 1; at_ 31 PRE 0 1; at_ 40 RDA 0 1; at_ 100 ACT 0 1; at_ 130 RDA 0 1; at_ 131 PRE 0 1; at_ 200 PREA 0 0].
Definition refreshed_bank : list Command := [at_ 0 PRE 0 1; at_ 10 REFA 0 0; at_ 20 PRE 0 1; at_ 200 ACT 0 1; at_ 230 WRA 0 1; at_ 300 PREA 1 0].
Lemma busy_case : (exists s, run_core ex_ddr4 busy_bank (core_new ex_ddr4) = Ok s) /\ pre_shown ex_ddr4 busy_bank 400 0 1 = Some (2, 3) /\
  amount (opens ex_ddr4 1) 0 busy_bank = 3 /\ amount (precharges ex_ddr4 1) 0 busy_bank = 6 /\
  (forall c, In c busy_bank -> N.to_nat (cmd_rank c) = 0%nat -> opens ex_ddr4 1 c = true -> cmd_type c = ACT).
Proof.
  split; [eexists; vm_compute; reflexivity|]. split; [vm_compute; reflexivity|]. split; [reflexivity|]. split; [reflexivity|].
  intros c C _ O. cbn [In busy_bank] in C. repeat destruct C as [<-|C]; try reflexivity; try discriminate O. destruct C.
Qed.
Lemma refreshed_case : (exists s, run_core ex_ddr4 refreshed_bank (core_new ex_ddr4) = Ok s) /\ pre_shown ex_ddr4 refreshed_bank 400 0 1 = Some (2, 1) /\
  amount (opens ex_ddr4 1) 0 refreshed_bank = 2 /\ amount (precharges ex_ddr4 1) 0 refreshed_bank = 3.
Proof. split; [eexists; vm_compute; reflexivity|]. split; [vm_compute; reflexivity|]. split; reflexivity. Qed.
