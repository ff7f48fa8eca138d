(* Statistics addition and comparison. *)
From Coq Require Import NArith List Bool Lia Arith.
From Verif Require Import Base Command CoreModel ListFacts Bits StatsModel StatsSpec.
Import ListNotations.
Local Open Scope N_scope.
Ltac Zify.zify_post_hook ::= idtac.

Lemma u64_add_comm a b : u64_add a b = u64_add b a. Proof. unfold u64_add. now rewrite N.add_comm. Qed.
Lemma two64_nz : two64 <> 0. Proof. discriminate. Qed.
Lemma u64_add_assoc a b c : u64_add (u64_add a b) c = u64_add a (u64_add b c).
Proof.
  unfold u64_add. rewrite N.add_mod_idemp_l, N.add_mod_idemp_r by apply two64_nz. now rewrite N.add_assoc.
Qed.
Lemma u64_add_0 a : a < two64 -> u64_add a 0 = a. Proof. intros H. unfold u64_add. rewrite N.add_0_r. now apply N.mod_small. Qed.

(* A record is determined by its counters. *)
Lemma part_ext a b : (forall p, part_at a p = part_at b p) -> a = b.
Proof.
  intros H. destruct a as [[] [] []], b as [[] [] []].
  pose proof (H (Counter K_act)). pose proof (H (Counter K_pre)). pose proof (H (Counter K_reads)). pose proof (H (Counter K_writes)).
  pose proof (H (Counter K_refAllBank)). pose proof (H (Counter K_refPerBank)). pose proof (H (Counter K_refPerTwoBanks)). pose proof (H (Counter K_refDualBanks)).
  pose proof (H (Counter K_refSameBank)). pose proof (H (Counter K_readAuto)). pose proof (H (Counter K_writeAuto)).
  pose proof (H (Cycles Act)). pose proof (H (Cycles Pre)). pose proof (H (Cycles PowerDownAct)). pose proof (H (Cycles PowerDownPre)).
  pose proof (H (Cycles SelfRefresh)). pose proof (H (Cycles DeepSleep)).
  pose proof (H (Prepos ReadMerged)). pose proof (H (Prepos ReadMergedTime)). pose proof (H (Prepos WriteMerged)). pose proof (H (Prepos WriteMergedTime)).
  pose proof (H (Prepos ReadSeamless)). pose proof (H (Prepos WriteSeamless)). clear H. cbn in *. now subst.
Qed.
Lemma field_ext a b : (forall f, field_at a f = field_at b f) -> a = b.
Proof.
  intros H. destruct a, b. pose proof (H Ones). pose proof (H Zeroes). pose proof (H BitChanges). pose proof (H OnesToZeroes). pose proof (H ZeroesToOnes).
  cbn in *. now subst.
Qed.
Lemma vec_ext a b : length a = length b -> (forall i p, match nth_error a i with Some c => part_at c p | None => 0 end = match nth_error b i with Some c => part_at c p | None => 0 end) -> a = b.
Proof.
  revert b. induction a as [|x a IH]; intros [|y b] Hl H; try discriminate; [reflexivity|]. f_equal.
  - apply part_ext. intros p. exact (H 0%nat p).
  - apply IH; [now injection Hl|]. intros i p. exact (H (S i) p).
Qed.
Lemma sim_ext a b : length (ss_bank a) = length (ss_bank b) -> length (ss_rank a) = length (ss_rank b) -> (forall x, count_at a x = count_at b x) -> a = b.
Proof.
  intros Hb Hr H.
  assert (forall n, bus_at a n = bus_at b n) as B by (intros n; apply field_ext; intros f; exact (H (OnBus n f))).
  assert (ss_bank a = ss_bank b) as B1 by (apply vec_ext; [exact Hb|intros i p; exact (H (OfBank i p))]).
  assert (ss_rank a = ss_rank b) as B2 by (apply vec_ext; [exact Hr|intros i p; exact (H (OfRank i p))]).
  pose proof (B CommandBus). pose proof (B ReadBus). pose proof (B WriteBus). pose proof (B ClockStats). pose proof (B WClockStats). pose proof (B ReadDBI).
  pose proof (B WriteDBI). pose proof (B TogglingRead). pose proof (B TogglingWrite). pose proof (B ReadDQS). pose proof (B WriteDQS). clear B H.
  destruct a, b; cbn in *. now subst.
Qed.

Lemma part_add a b p : part_at (cyc_add a b) p = u64_add (part_at a p) (part_at b p).
Proof. destruct p as [[]|[]|[]]; reflexivity. Qed.
Lemma field_add a b f : field_at (stats_add a b) f = u64_add (field_at a f) (field_at b f).
Proof. destruct f; reflexivity. Qed.
Lemma bus_add a b n : bus_at (sim_add a b) n = stats_add (bus_at a n) (bus_at b n).
Proof. destruct n; reflexivity. Qed.
Lemma vec_add_length a b : length (vec_add a b) = Nat.max (length a) (length b).
Proof. revert b. induction a as [|x a IH]; intros [|y b]; cbn [vec_add length Nat.max]; try reflexivity. now rewrite IH. Qed.
Lemma vec_add_nth a : forall b i, nth_error (vec_add a b) i =
  match nth_error a i, nth_error b i with Some x, Some y => Some (cyc_add x y) | Some x, None => Some x | None, y => y end.
Proof.
  induction a as [|x a IH]; intros [|y b] [|i]; cbn [vec_add nth_error]; try reflexivity.
  - now destruct (nth_error a i).
  - apply IH.
Qed.

Theorem add_counts a b : in_range a -> in_range b -> forall x, count_at (sim_add a b) x = (count_at a x + count_at b x) mod two64.
Proof.
  intros Ra Rb [n f|i p|i p]; cbn [count_at].
  - now rewrite bus_add, field_add.
  - cbn [ss_bank sim_add]. rewrite vec_add_nth. pose proof (Ra (OfBank i p)) as A. pose proof (Rb (OfBank i p)) as B. cbn [count_at] in A, B.
    destruct (nth_error (ss_bank a) i), (nth_error (ss_bank b) i); [apply part_add| | |]; rewrite ?N.add_0_r; cbn [N.add]; now rewrite N.mod_small.
  - cbn [ss_rank sim_add]. rewrite vec_add_nth. pose proof (Ra (OfRank i p)) as A. pose proof (Rb (OfRank i p)) as B. cbn [count_at] in A, B.
    destruct (nth_error (ss_rank a) i), (nth_error (ss_rank b) i); [apply part_add| | |]; rewrite ?N.add_0_r; cbn [N.add]; now rewrite N.mod_small.
Qed.
Theorem add_sizes a b : length (ss_bank (sim_add a b)) = Nat.max (length (ss_bank a)) (length (ss_bank b)) /\
  length (ss_rank (sim_add a b)) = Nat.max (length (ss_rank a)) (length (ss_rank b)).
Proof. split; apply vec_add_length. Qed.
Theorem add_in_range a b : in_range a -> in_range b -> in_range (sim_add a b).
Proof. intros Ra Rb x. rewrite add_counts by assumption. apply N.mod_lt, two64_nz. Qed.

Lemma vec_add_comm a b : vec_add a b = vec_add b a.
Proof.
  revert b. induction a as [|x a IH]; intros [|y b]; cbn [vec_add]; try reflexivity. f_equal; [|apply IH].
  apply part_ext. intros p. rewrite !part_add. apply u64_add_comm.
Qed.
Lemma vec_add_assoc a b c : vec_add (vec_add a b) c = vec_add a (vec_add b c).
Proof.
  revert b c. induction a as [|x a IH]; intros [|y b] [|z c]; cbn [vec_add]; try reflexivity. f_equal; [|apply IH].
  apply part_ext. intros p. rewrite !part_add. apply u64_add_assoc.
Qed.
Lemma stats_add_comm' a b : stats_add a b = stats_add b a.
Proof. apply field_ext. intros f. rewrite !field_add. apply u64_add_comm. Qed.
Lemma stats_add_assoc a b c : stats_add (stats_add a b) c = stats_add a (stats_add b c).
Proof. apply field_ext. intros f. rewrite !field_add. apply u64_add_assoc. Qed.
Theorem sim_add_comm a b : sim_add a b = sim_add b a.
Proof. unfold sim_add. f_equal; try apply stats_add_comm'; apply vec_add_comm. Qed.
Theorem sim_add_assoc a b c : sim_add (sim_add a b) c = sim_add a (sim_add b c).
Proof. unfold sim_add. f_equal; cbn [ss_commandBus ss_readBus ss_writeBus ss_clock ss_wClock ss_readDBI ss_writeDBI ss_togRead ss_togWrite ss_readDQS ss_writeDQS ss_bank ss_rank]; try apply stats_add_assoc; apply vec_add_assoc. Qed.
Theorem sim_add_zero a : in_range a -> sim_add a sim_stats0 = a.
Proof.
  intros R. apply sim_ext.
  - cbn. now destruct (ss_bank a).
  - cbn. now destruct (ss_rank a).
  - assert (forall x, count_at sim_stats0 x = 0) as Z by (intros [[] []|i p|i p]; cbn; try reflexivity; destruct i; reflexivity).
    intros x. rewrite add_counts; [|exact R|intros y; rewrite Z; reflexivity]. rewrite Z, N.add_0_r. apply N.mod_small, R.
Qed.

(* Comparison. *)
Lemma bus_eqb_spec a b : bus_eqb a b = true <-> a = b.
Proof.
  unfold bus_eqb. rewrite !andb_true_iff, !N.eqb_eq. split; [|intros ->; tauto]. intros H. destruct a, b; cbn in H. decompose [and] H. now subst.
Qed.
Lemma cyc_eqb_spec a b : cyc_eqb a b = true <-> a = b.
Proof.
  unfold cyc_eqb, cs_eqb, cy_eqb, pp_eqb. rewrite !andb_true_iff, !N.eqb_eq. split; [|intros ->; tauto].
  intros H. destruct a as [[] [] []], b as [[] [] []]; cbn in H. decompose [and] H. now subst.
Qed.
Lemma vec_eqb_spec a b : vec_eqb a b = true <-> a = b.
Proof.
  revert b. induction a as [|x a IH]; intros [|y b]; cbn [vec_eqb]; try (split; [discriminate|discriminate]); [tauto|].
  rewrite andb_true_iff, cyc_eqb_spec, IH. split; [intros [-> ->]; reflexivity|intros E; injection E as -> ->; tauto].
Qed.
Theorem sim_eqb_spec a b : sim_eqb a b = true <-> a = b.
Proof.
  unfold sim_eqb. rewrite !andb_true_iff, !bus_eqb_spec, !vec_eqb_spec. split; [|intros ->; tauto].
  intros H. destruct a, b; cbn in H. decompose [and] H. now subst.
Qed.
