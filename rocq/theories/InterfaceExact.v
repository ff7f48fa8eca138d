(* Strobes and clocks that follow the bursts, in windows of any length. *)
From Coq Require Import NArith QArith List Bool Lia.
From Verif Require Import Base Command CoreModel Bits BusModel WaveSpec BusProofs ClockProofs BitFacts ToggleModel StatsModel InterfaceModel InterfaceSpec InterfaceRun InterfaceTop InterfaceExamples.
Import ListNotations.
Local Open Scope N_scope.
Ltac Zify.zify_post_hook ::= idtac.

Definition short (p : ifspec) (bus : bool) (half : N) (c : Command) : Prop :=
  cmd_ts c + burst_cycles p bus c < two64 /\ burst_cycles p bus c * (2 * half) < two64.

Lemma strobe_run p bus want half cs : Forall (short p bus half) cs -> forall R k k',
  ck_start k = None -> ck_rate k = 2 * half -> ck_stats k = wrap_stats (periods half R) ->
  clock_run (strobe p bus want cs) k = Value k' ->
  ck_start k' = None /\ ck_stats k' = wrap_stats (periods half (R + total_cycles p bus want cs)).
Proof.
  induction 1 as [|c cs [B1 B2] F IH]; intros R k k' K1 K2 K3 E.
  - cbn in E. injection E as <-. unfold total_cycles. cbn [filter map fold_right]. rewrite N.add_0_r. auto.
  - unfold total_cycles, strobe in *. cbn [filter flat_map] in *. fold (strobe p bus want cs) in E. fold (total_cycles p bus want cs) in *.
    destruct (transfers (cmd_type c)) as [read|]; [|exact (IH R k k' K1 K2 K3 E)]. destruct (want read); [|exact (IH R k k' K1 K2 K3 E)].
    cbn [map fold_right]. unfold clock_run in E. cbn [app loop clock_do] in E. unfold clock_start in E. rewrite K1 in E. cbn [bind] in E.
    unfold clock_stop in E. cbn [ck_start] in E. unfold check in E. destruct (N.ltb_spec (cmd_ts c) (cmd_ts c + burst_cycles p bus c)); [|discriminate].
    cbn [bind] in E. rewrite N.add_assoc. eapply IH; [| | |exact E]; cbn [ck_start ck_rate ck_stats]; auto.
    rewrite K2, K3, clock_sub by lia. replace (cmd_ts c + burst_cycles p bus c - cmd_ts c) with (burst_cycles p bus c) by lia.
    rewrite clock_count_periods by assumption. rewrite stats_add_wrap, periods_add. reflexivity.
Qed.
Lemma strobe_any p bus want half cs k t : Forall (short p bus half) cs ->
  clock_run (strobe p bus want cs) (clock_new (2 * half) true) = Value k ->
  clock_get k t = wrap_stats (periods half (total_cycles p bus want cs)).
Proof.
  intros F E. assert (wrap_stats (periods half 0) = stats0) as Z by (unfold periods; rewrite N.mul_0_r; reflexivity).
  destruct (strobe_run p bus want half cs F 0 (clock_new (2 * half) true) k) as [S1 S2]; auto.
  unfold clock_get. rewrite S1, S2. f_equal.
Qed.

Section Exact.
Context (p : ifspec) (sim : option toggle_def) (i0 : iface) (xs : list call) (i : iface) (t : N) (st st' : sim_stats)
  (Sz : sizes_ok p) (G : fi_std p = LPDDR6 -> fi_groups p = 4) (New : iface_new p sim = Value i0)
  (Ok : Forall (command_ok p (no_toggle sim)) (commands xs)) (Run : calls_run xs i0 = Value i) (Win : if_window i t st = Value st').

Theorem strobes_exact half : dqs_rate p = 2 * half ->
  Forall (fun c => burst_cycles p (no_toggle sim) c * (2 * half) < two64) (commands xs) ->
  ss_readDQS st' = wrap_stats (scale (strobe_lines p) (periods half (total_cycles p (no_toggle sim) wants_read (commands xs)))) /\
  (two_clocks (fi_std p) = false ->
   ss_writeDQS st' = wrap_stats (scale (strobe_lines p) (periods half (total_cycles p (no_toggle sim) negb (commands xs))))).
Proof using Sz G New Ok Run Win.
  intros Hr F. pose proof (run_inv_top p sim i0 xs i Sz G New Ok Run) as V. pose proof (new_built p sim i0 New) as B.
  destruct (window_fields i t st st' Win) as (_ & _ & _ & _ & W1 & W2 & _). rewrite (rn_spec _ _ _ _ _ V) in W1, W2. fold (dqs_rate p) in *.
  pose proof (bt_rdqs _ _ _ B) as Br. pose proof (bt_wdqs _ _ _ B) as Bw. fold (dqs_rate p) in Br, Bw. rewrite Hr in Br, Bw.
  assert (Forall (short p (no_toggle sim) half) (commands xs)) as Sh.
  { rewrite Forall_forall in F, Ok |- *. intros c I. split; [apply (Ok c I)|exact (F c I)]. }
  split.
  - pose proof (rn_rdqs _ _ _ _ _ V) as R. rewrite Br in R. rewrite W1, (strobe_any p _ wants_read half _ _ t Sh R). apply stats_mul_wrap.
  - intros T. rewrite T in W2. pose proof (rn_wdqs _ _ _ _ _ V) as R. rewrite T, Bw in R. rewrite W2, (strobe_any p _ negb half _ _ t Sh R). apply stats_mul_wrap.
Qed.
Theorem wck_exact half : two_clocks (fi_std p) = true -> fi_rate p / fi_wck p = 2 * half -> fi_wck_on p = false ->
  Forall (fun c => burst_cycles p (no_toggle sim) c * (2 * half) < two64) (commands xs) ->
  ss_wClock st' = wrap_stats (scale 2 (periods half (total_cycles p (no_toggle sim) wants_any (commands xs)))).
Proof using Sz G New Ok Run Win.
  intros T Hr On F. pose proof (run_inv_top p sim i0 xs i Sz G New Ok Run) as V. pose proof (new_built p sim i0 New) as B.
  destruct (window_fields i t st st' Win) as (_ & _ & _ & W & _). rewrite (rn_spec _ _ _ _ _ V), T in W.
  assert (Forall (short p (no_toggle sim) half) (commands xs)) as Sh.
  { rewrite Forall_forall in F, Ok |- *. intros c I. split; [apply (Ok c I)|exact (F c I)]. }
  pose proof (rn_wck _ _ _ _ _ V T) as R. rewrite (bt_wck _ _ _ B T), Hr, (bt_on _ _ _ B) in R. rewrite On in R; cbn [negb] in R.
  rewrite W, (strobe_any p _ wants_any half _ _ t Sh R). apply stats_mul_wrap.
Qed.
End Exact.

(* A read and a write that overlap, and a window that ends before either is over. *)
Definition overlap : list call := [Do (cmd_at 0 ACT 0 3 0 []); Do (cmd_at 20 RD 0 0 9 long_row); Do (cmd_at 22 WR 0 0 9 long_row)].
Definition overlap_okb (t : N) : bool :=
  match stats_after (spec_of_std LPDDR6) None overlap t with
  | Value st => (ones (ss_wClock st) =? 48) && (ones (ss_readDQS st) =? 24)
  | Fails _ => false
  end.
Lemma overlap_runs :
  fi_wck_on (spec_of_std LPDDR6) = false /\ dqs_rate (spec_of_std LPDDR6) = 2 * 1 /\ fi_rate (spec_of_std LPDDR6) / fi_wck (spec_of_std LPDDR6) = 2 * 1 /\
  Forall (command_ok (spec_of_std LPDDR6) true) (commands overlap) /\
  Forall (fun c => burst_cycles (spec_of_std LPDDR6) true c * (2 * 1) < two64) (commands overlap) /\
  total_cycles (spec_of_std LPDDR6) true wants_any (commands overlap) = 24 /\
  total_cycles (spec_of_std LPDDR6) true wants_read (commands overlap) = 12 /\
  running_cycles false (strobe (spec_of_std LPDDR6) true wants_any (commands overlap)) 40 <> 24 /\
  overlap_okb 40 = true /\ overlap_okb 23 = true.
Proof.
  split; [reflexivity|]. split; [reflexivity|]. split; [reflexivity|].
  split; [repeat (apply Forall_cons; [split; vm_compute; reflexivity|]); apply Forall_nil|].
  split; [repeat (apply Forall_cons; [vm_compute; reflexivity|]); apply Forall_nil|].
  split; [vm_compute; reflexivity|]. split; [vm_compute; reflexivity|]. split; [vm_compute; discriminate|].
  split; vm_compute; reflexivity.
Qed.
