(* C31 and C33: command names and statistics addition. *)
From Coq Require Import NArith String List Bool.
From Verif Require Import Base Command CoreModel Bits StatsModel StatsSpec StatsProofs CmdProofs.
Import ListNotations.
Local Open Scope N_scope.

(* C31: parsing the printed name gives the type back, for all but two
   enumerators. *)
Theorem C31_names_round_trip : forall t, t <> END_OF_SIMULATION -> t <> COUNT -> from_string (to_string t) = t.
Proof. exact names_round_trip. Qed.
Print Assumptions C31_names_round_trip.
Example C31_names_round_trip_case : to_string REFP2B = "REFP2B"%string /\ from_string "REFP2B" = REFP2B.
Proof. split; reflexivity. Qed.
(* Every type except COUNT has a name that parses to it, and only the listed
   strings parse to something other than NOP. *)
Theorem C31_names_cover : forall t, t <> COUNT -> exists s, from_string s = t.
Proof. exact names_cover. Qed.
Print Assumptions C31_names_cover.
Theorem C31_names_unique : forall s s', from_string s = from_string s' -> from_string s <> NOP -> s = s'.
Proof. exact names_unique. Qed.
Print Assumptions C31_names_unique.
Example C31_names_unique_case : from_string "END" = END_OF_SIMULATION /\ from_string "rd" = NOP /\ from_string "RD" = RD.
Proof. repeat split. Qed.
(* END_OF_SIMULATION prints as a name that parses to NOP. *)
Theorem C31_names_round_trip_refuted : exists t, from_string (to_string t) <> t /\ from_string (to_string t) = NOP.
Proof. exists END_OF_SIMULATION. split; [discriminate|reflexivity]. Qed.
Print Assumptions C31_names_round_trip_refuted.

(* C33: addition is counter by counter modulo 2^64; a bank or rank missing on
   one side counts as zero. *)
Theorem C33_addition_is_counterwise : forall a b, in_range a -> in_range b -> forall x, count_at (sim_add a b) x = (count_at a x + count_at b x) mod two64.
Proof. exact add_counts. Qed.
Print Assumptions C33_addition_is_counterwise.
Theorem C33_addition_sizes : forall a b, length (ss_bank (sim_add a b)) = Nat.max (length (ss_bank a)) (length (ss_bank b)) /\
  length (ss_rank (sim_add a b)) = Nat.max (length (ss_rank a)) (length (ss_rank b)).
Proof. exact add_sizes. Qed.
Print Assumptions C33_addition_sizes.
Theorem C33_addition_in_range : forall a b, in_range a -> in_range b -> in_range (sim_add a b).
Proof. exact add_in_range. Qed.
Print Assumptions C33_addition_in_range.
Definition some_stats (n : N) (k : nat) : sim_stats :=
  mkSim (mkStats n 1 2 3 4) stats0 stats0 stats0 stats0 stats0 stats0 stats0 (mkStats 0 0 0 0 n) stats0 stats0
    (repeat (mkCS (mkCstats 1 2 3 4 5 6 7 8 9 10 n) (mkCycles 1 2 3 4 5 6) (mkPrepos 1 2 3 4 5 6)) k) [cycle_stats0].
Lemma some_range n k : n < two64 -> in_range (some_stats n k).
Proof.
  intros H. assert (forall i, nth_error (ss_bank (some_stats n k)) i = None \/ nth_error (ss_bank (some_stats n k)) i = Some (mkCS (mkCstats 1 2 3 4 5 6 7 8 9 10 n) (mkCycles 1 2 3 4 5 6) (mkPrepos 1 2 3 4 5 6))) as A
    by (cbn [ss_bank some_stats]; induction k as [|k IH]; intros [|i]; cbn; auto).
  intros [[] []|i p|i p]; cbn [count_at].
  all: try exact H; try reflexivity.
  - destruct (A i) as [-> | ->]; [reflexivity|]. destruct p as [[]|[]|[]]; try exact H; reflexivity.
  - destruct i as [|[|i]]; cbn; try reflexivity. destruct p as [[]|[]|[]]; reflexivity.
Qed.
Example C33_addition_case : in_range (some_stats 5 2) /\ in_range (some_stats (two64 - 1) 3) /\
  count_at (sim_add (some_stats 5 2) (some_stats (two64 - 1) 3)) (OnBus CommandBus Ones) = 4 /\
  count_at (sim_add (some_stats 5 2) (some_stats (two64 - 1) 3)) (OfBank 2 (Counter K_writeAuto)) = two64 - 1 /\
  count_at (sim_add (some_stats 5 2) (some_stats (two64 - 1) 3)) (OfBank 1 (Prepos WriteSeamless)) = 12.
Proof. split; [apply some_range; reflexivity|]. split; [apply some_range; reflexivity|]. repeat split. Qed.

Theorem C33_addition_commutes : forall a b, sim_add a b = sim_add b a.
Proof. exact sim_add_comm. Qed.
Print Assumptions C33_addition_commutes.
Theorem C33_addition_associates : forall a b c, sim_add (sim_add a b) c = sim_add a (sim_add b c).
Proof. exact sim_add_assoc. Qed.
Print Assumptions C33_addition_associates.
Theorem C33_zero_is_neutral : forall a, in_range a -> sim_add a sim_stats0 = a.
Proof. exact sim_add_zero. Qed.
Print Assumptions C33_zero_is_neutral.
(* operator== is equality, and equality is agreement on every counter and size. *)
Theorem C33_comparison_is_equality : forall a b, sim_eqb a b = true <-> a = b.
Proof. exact sim_eqb_spec. Qed.
Print Assumptions C33_comparison_is_equality.
Theorem C33_counters_determine : forall a b, length (ss_bank a) = length (ss_bank b) -> length (ss_rank a) = length (ss_rank b) ->
  (forall x, count_at a x = count_at b x) -> a = b.
Proof. exact sim_ext. Qed.
Print Assumptions C33_counters_determine.
Example C33_comparison_case : sim_eqb (some_stats 5 2) (some_stats 5 2) = true /\ sim_eqb (some_stats 5 2) (some_stats 5 3) = false /\ sim_eqb (some_stats 5 2) (some_stats 6 2) = false.
Proof. repeat split. Qed.
