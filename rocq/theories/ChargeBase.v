(* Legal histories: the machine in every cycle, rows closed, banks a command is counted for. *)
From Coq Require Import ZArith NArith List Bool Lia ZifyBool ZifyNat ZifyN.
From Verif Require Import Base Command CoreModel ListFacts QueueProofs CoreBasics HistorySpec CoreHistory DeviceSpec RefineBase RefineRun RefineMain DeviceFacts.
From Verif Require Import ChargeSpec.
Import ListNotations.
Local Open Scope N_scope.

(* ---- the machine during a legal history ---- *)

Lemma sorted_split n cs : forall from, nondecreasing from (map cmd_ts cs) ->
  exists z, cs = filter (fun c => cmd_ts c <=? n) cs ++ z.
Proof.
  induction cs as [|c cs IH]; intros from H; [exists []; reflexivity|].
  cbn [map nondecreasing] in H. destruct H as [H1 H2].
  cbn [filter]. destruct (N.leb_spec (cmd_ts c) n) as [L|L].
  - destruct (IH _ H2) as [z Hz]. exists z. cbn [app]. f_equal. exact Hz.
  - exists (c :: cs). rewrite filter_none; [reflexivity|]. intros x Hx. pose proof (proj2 (nondecreasing_ge cs (cmd_ts c) H2) x Hx). lia.
Qed.

Lemma final_filter n cs : final_time 0 (map cmd_ts (filter (fun c => cmd_ts c <=? n) cs)) <= n.
Proof.
  assert (Forall (fun c => cmd_ts c <= n) (filter (fun c => cmd_ts c <=? n) cs)) as F.
  { apply Forall_forall. intros x Hx. apply filter_In in Hx. lia. }
  revert F. generalize (filter (fun c => cmd_ts c <=? n) cs) as l. intros l. destruct l as [|c l] using rev_ind; intros F; [cbn; lia|].
  rewrite final_time_app. apply Forall_app in F as [_ F]. now inversion F.
Qed.

Lemma timely_before p cs t n : timely p cs t -> n <= t -> timely p (filter (fun c => cmd_ts c <=? n) cs) n.
Proof.
  intros [T1 [T2 [T3 [T4 T5]]]] Hn. destruct (filter_times (fun c => cmd_ts c <=? n) cs T1) as [F1 F2].
  pose proof (filter_length (fun c => cmd_ts c <=? n) cs). split; [exact F1|]. split; [apply filter_overflow; exact T2|].
  split; [apply final_filter|]. split; lia.
Qed.

Lemma device_at_ok p r cs t n : well_formed p -> timely p cs t -> legal p r cs -> n <= t ->
  exists d ps, device_at p r cs n = Some d /\ dev_ok ps d /\ length (dv_banks d) = ms_banks p.
Proof.
  intros W T L Hn. pose proof (timely_before p cs t n T Hn) as T'.
  destruct (sorted_split n cs 0 (proj1 T)) as [z Hz].
  assert (legal p r (filter (fun c => cmd_ts c <=? n) cs)) as L' by (apply (legal_cat p r _ z); rewrite <- Hz; exact L).
  destruct (legal_sync p r _ n W T' L') as [st [d [R1 [R2 S]]]].
  exists (settle n d), (iv_get_start (rk_pda (fst (r_drain p n st)))). split.
  - unfold device_at. rewrite filter_filter in R2. rewrite (filter_ext _ (fun c => (cmd_ts c <=? n) && to_rank r c)).
    + rewrite R2. reflexivity.
    + intros c. apply andb_comm.
  - destruct (sy_rel _ _ _ _ _ _ S). split; [assumption|]. apply rl_len.
Qed.

(* Every activated row has been closed, except one that is still open. *)
Lemma rows_closed p r cs s t b : well_formed p -> timely p cs t -> (r < ms_ranks p)%nat -> (b < ms_banks p)%nat -> legal p r cs ->
  run_core p cs (core_new p) = Ok s ->
  exists st d sb, shown_bank p (snd (window_stats p t s)) r b = Some st /\ device_at p r cs t = Some d /\ nth_error (dv_banks d) b = Some sb /\
    cs_act (bs_counter st) = cs_pre (bs_counter st) + (if row_open sb then 1 else 0).
Proof.
  intros W T Hr Hb L H. pose proof T as [T1 [T2 [T3 [T4 T5]]]].
  destruct (legal_sync p r cs t W T L) as [st [d [R1 [R2 S]]]].
  destruct (proj_run p r cs s Hr T1 H) as [a [st' [Pa [R1' A]]]].
  rewrite R1 in R1'. injection R1' as <-.
  pose proof (queue_sorted_reachable p cs s H) as Q.
  pose proof (run_core_sizes _ _ _ _ (core_new_sizes p) H) as Z.
  destruct (rel_bank_ex _ _ _ _ _ _ b (sy_rel _ _ _ _ _ _ S) Hb) as [k [sb [Hk [Hsb B]]]].
  exists (bank_window p t (fst (r_drain p t st)) k), (settle t d), sb. split; [|split; [|split]].
  - rewrite shown_bank_proj by auto. rewrite Pa, (A t T3). cbv zeta. unfold bnk in Hk. rewrite Hk. reflexivity.
  - rewrite device_at_dev. unfold dev. rewrite filter_all; [now rewrite R2|].
    intros c Hc. apply filter_In in Hc as [Hc _]. pose proof (nondecreasing_le cs 0 c T1 Hc). lia.
  - exact Hsb.
  - destruct (br_n _ _ _ _ _ _ _ B) as [_ [_ E]]. cbn [bank_window bs_counter]. rewrite E. unfold row_open. destruct (sb_state sb); reflexivity.
Qed.

(* Commands of a legal history. *)
Lemma run_device_checked p cs : forall d d', run_device p cs d = Some d' -> Forall (fun c => in_standard p (cmd_type c) && well_addressed p c = true) cs.
Proof.
  induction cs as [|c cs IH]; intros d d' H; constructor; cbn in H.
  - destruct (command p c (settle (cmd_ts c) d)) eqn:E; [|discriminate]. unfold command in E.
    destruct (in_standard p (cmd_type c) && well_addressed p c); [reflexivity|discriminate].
  - destruct (command p c (settle (cmd_ts c) d)) eqn:E; [|discriminate]. eapply IH; eauto.
Qed.
Lemma legal_checked p r cs : legal p r cs -> Forall (fun c => in_standard p (cmd_type c) && well_addressed p c = true) (filter (to_rank r) cs).
Proof. unfold legal. intros L. destruct (run_device p (filter (to_rank r) cs) (device_new p)) eqn:E; [|congruence]. eapply run_device_checked; eauto. Qed.

(* ---- how many banks count a command ---- *)

Definition spread (p : memspec) (k : ckind) (c : Command) : nat := list_sum (map (counted p k c) (seq 0 (ms_banks p))).

Lemma sum_cons x l : list_sum (x :: l) = (x + list_sum l)%nat.
Proof. reflexivity. Qed.
Lemma sum_zero {A} (f : A -> nat) l : (forall x, In x l -> f x = 0%nat) -> list_sum (map f l) = 0%nat.
Proof. induction l as [|x l IH]; intros H; cbn; auto. rewrite (H x (or_introl eq_refl)). apply IH. intros y Hy. apply H. now right. Qed.
Lemma sum_add {A} (f g : A -> nat) l : list_sum (map (fun x => f x + g x)%nat l) = (list_sum (map f l) + list_sum (map g l))%nat.
Proof. induction l as [|x l IH]; [reflexivity|]. cbn [map]. rewrite !sum_cons, IH. lia. Qed.
Lemma sum_ext {A} (f g : A -> nat) l : (forall x, In x l -> f x = g x) -> list_sum (map f l) = list_sum (map g l).
Proof. intros H. f_equal. apply map_ext_in. exact H. Qed.
Lemma sum_one a B : (a < B)%nat -> list_sum (map (fun b => b2n (Nat.eqb a b)) (seq 0 B)) = 1%nat.
Proof.
  intros H. replace B with (a + S (B - a - 1))%nat by lia. rewrite seq_app, map_app, list_sum_app. cbn [seq map].
  rewrite (sum_zero _ (seq 0 a)). 2:{ intros x Hx. apply in_seq in Hx. destruct (Nat.eqb_spec a x); [lia|reflexivity]. }
  rewrite sum_cons, Nat.eqb_refl. rewrite sum_zero; [reflexivity|]. intros x Hx. apply in_seq in Hx. destruct (Nat.eqb_spec a x); [lia|reflexivity].
Qed.
Lemma sum_all B : list_sum (map (fun _ : nat => 1%nat) (seq 0 B)) = B.
Proof.
  assert (forall i, list_sum (map (fun _ : nat => 1%nat) (seq i B)) = B) as X; [|apply X].
  induction B as [|B IH]; intros i; [reflexivity|]. cbn [seq map]. rewrite sum_cons, IH. lia.
Qed.
(* One bank of every group. *)
Lemma sum_groups a G M : (0 < M)%nat -> (a < M)%nat ->
  list_sum (map (fun b => b2n (Nat.eqb (b mod M) a && Nat.ltb (b / M) G)) (seq 0 (G * M))) = G.
Proof.
  intros HM Ha. 
  assert (forall g, (g <= G)%nat -> list_sum (map (fun b => b2n (Nat.eqb (b mod M) a && Nat.ltb (b / M) G)) (seq 0 (g * M))) = g) as X.
  { induction g as [|g IH]; intros Hg; [reflexivity|].
    replace (S g * M)%nat with (g * M + M)%nat by lia. rewrite seq_app, map_app, list_sum_app, IH by lia.
    replace (seq (0 + g * M) M) with (map (fun i => (g * M + i)%nat) (seq 0 M)).
    - rewrite map_map. rewrite (sum_ext _ (fun b => b2n (Nat.eqb a b))); [rewrite sum_one; lia|].
      intros x Hx. apply in_seq in Hx. rewrite (Nat.add_comm (g * M)), Nat.mod_add, Nat.mod_small by lia.
      rewrite Nat.div_add, Nat.div_small by lia. destruct (Nat.ltb_spec (0 + g) G); [|lia]. rewrite andb_true_r, Nat.eqb_sym. reflexivity.
    - rewrite Nat.add_0_l. clear. assert (forall i n m, map (fun x => (n + x)%nat) (seq i m) = seq (n + i) m) as S.
      { intros i n m. revert i. induction m as [|m IH]; intros i; cbn; [reflexivity|]. f_equal. rewrite IH. f_equal. lia. }
      rewrite S. f_equal. lia. }
  apply X. lia.
Qed.

Lemma counted_in_sum p k r b cs : counted_in p k r b cs = fold_right (fun c n => N.of_nat (counted p k c b) + n) 0 (filter (to_rank r) cs).
Proof.
  unfold counted_in. induction cs as [|c cs IH]; cbn [fold_right filter]; [reflexivity|].
  unfold to_rank at 1. destruct (Nat.eqb (N.to_nat (cmd_rank c)) r); cbn [fold_right]; rewrite IH; reflexivity.
Qed.

Lemma counted_le1 p k c b : well_addressed p c = true -> (counted p k c b <= 1)%nat.
Proof.
  intros H. destruct k; cbn [counted]; unfold b2n; repeat match goal with |- context [if ?x then _ else _] => destruct x eqn:? end; try lia;
    unfold is_cmd in *; unfold well_addressed in H; destruct (cmd_type c); try discriminate;
    rewrite !andb_true_iff, negb_true_iff, Nat.eqb_neq in H;
    repeat match goal with Hx : Nat.eqb _ _ = true |- _ => apply Nat.eqb_eq in Hx end; lia.
Qed.

Lemma counted_small p k r b cs : Forall (fun c => in_standard p (cmd_type c) && well_addressed p c = true) (filter (to_rank r) cs) ->
  N.of_nat (length cs) < two64 -> counted_in p k r b cs < two64.
Proof.
  intros F H. rewrite counted_in_sum. pose proof (filter_length (to_rank r) cs) as L. revert F L. generalize (filter (to_rank r) cs) as l. intros l F L.
  assert (fold_right (fun c n => N.of_nat (counted p k c b) + n) 0 l <= N.of_nat (length l)) as X; [|lia].
  clear L. induction F as [|c l Hc F IH]; cbn [fold_right length]; [lia|]. apply andb_true_iff in Hc as [_ Hc].
  pose proof (counted_le1 p k c b Hc). lia.
Qed.

Definition spread_of (p : memspec) (k : ckind) (c : CmdType) : nat :=
  match c, k with
  | ACT, K_act | RD, K_reads | WR, K_writes | RDA, K_readAuto | WRA, K_writeAuto | REFB, K_refPerBank => 1%nat
  | (REFA | SREFEN), K_refAllBank => ms_banks p
  | REFSB, K_refSameBank => ms_groups p
  | REFP2B, K_refPerTwoBanks | REFDB, K_refDualBanks => 2%nat
  | _, _ => 0%nat
  end.
Lemma spread_value p k c : well_formed p -> in_standard p (cmd_type c) && well_addressed p c = true -> spread p k c = spread_of p k (cmd_type c).
Proof.
  intros [W1 W2] H. apply andb_true_iff in H as [H1 H2]. unfold spread.
  assert (forall f, (forall b, f b = 0%nat) -> list_sum (map f (seq 0 (ms_banks p))) = 0%nat) as Z by (intros f Hf; apply sum_zero; intros; apply Hf).
  assert (forall a f, (a < ms_banks p)%nat -> (forall b, f b = b2n (Nat.eqb a b)) -> list_sum (map f (seq 0 (ms_banks p))) = 1%nat) as O.
  { intros a f Ha Hf. rewrite <- (sum_one a (ms_banks p) Ha). apply sum_ext. intros; apply Hf. }
  assert (forall a a' f, (a < ms_banks p)%nat -> (a' < ms_banks p)%nat -> (forall b, f b = (b2n (Nat.eqb a b) + b2n (Nat.eqb a' b))%nat) -> list_sum (map f (seq 0 (ms_banks p))) = 2%nat) as T.
  { intros a a' f Ha Ha' Hf. rewrite (sum_ext f (fun b => (b2n (Nat.eqb a b) + b2n (Nat.eqb a' b))%nat)) by (intros; apply Hf).
    rewrite sum_add, !sum_one by assumption. reflexivity. }
  unfold counted, is_cmd, spread_of. unfold well_addressed in H2.
  destruct (cmd_type c) eqn:E; destruct k; cbn [CmdType_beq andb orb b2n]; try (apply Z; reflexivity);
    try (apply (O (addr c)); [apply Nat.ltb_lt; exact H2|reflexivity]); try apply sum_all.
  - (* REFP2B *) rewrite !andb_true_iff in H2. destruct H2 as [[A B] _]. apply Nat.ltb_lt in A. apply Nat.ltb_lt in B.
    apply (T (addr c) ((addr c + ms_p2bOffset p) mod 16)%nat); auto.
  - (* REFDB *) rewrite !andb_true_iff in H2. destruct H2 as [[A B] _]. apply Nat.ltb_lt in A. apply Nat.ltb_lt in B.
    apply (T (addr c) (N.to_nat (cmd_dbank c))); auto.
  - (* REFSB *) assert (ms_std p = DDR5) as S5 by (unfold in_standard in H1; destruct (ms_std p); try discriminate; reflexivity).
    destruct (W2 S5) as [M G]. rewrite <- G. unfold same_index. rewrite sum_groups; auto. apply Nat.mod_upper_bound. lia.
Qed.
