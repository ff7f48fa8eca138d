(* Concrete checkpoints of interfaces. *)
From Coq Require Import NArith List Bool.
From Verif Require Import Base Command CoreModel Bits BusModel StatsModel ToggleModel PatternModel PatternProofs InterfaceModel InterfaceSpec InterfaceExamples SerialModel SerialSpec.
Import ListNotations.
Local Open Scope N_scope.

Fixpoint distinct_keys (l : list desc) : bool :=
  match l with [] => true | d :: r => negb (existsb (desc_eqb d) r) && distinct_keys r end.
Lemma distinct_nodup l : distinct_keys l = true -> NoDup l.
Proof.
  induction l as [|d r IH]; intros H; constructor; cbn [distinct_keys] in H; apply andb_true_iff in H as [H1 H2]; [|now apply IH].
  intros I. apply negb_true_iff in H1. assert (existsb (desc_eqb d) r = true) as X; [|congruence].
  apply existsb_exists. exists d. split; [exact I|]. now apply desc_eqb_spec.
Qed.
(* Settings in the order of the model. *)
Definition as_is (i : iface) : overrides := settings_of (if_pat i).
Lemma as_is_traversal i : distinct_keys (map fst (as_is i)) = true -> traversal (as_is i) (settings_of (if_pat i)).
Proof. intros H. split; [now apply distinct_nodup|reflexivity]. Qed.

(* Make an interface, call it, write it, read that into a new one, go on with both. *)
Inductive replayed := Replayed (before after : list reply) | Unreadable | NotRun.
Definition replay (p : ifspec) (xs : list call) (later : list step) : replayed :=
  match iface_new p None with
  | Value i0 => match calls_run xs i0 with
                | Value i => if distinct_keys (map fst (as_is i)) then
                               match r_iface i0 (w_iface (as_is i) i) with
                               | Got j _ => Replayed (watch later i) (watch later j)
                               | BadBool => Unreadable
                               | Mismatch => NotRun
                               end
                             else NotRun
                | Fails _ => NotRun
                end
  | Fails _ => NotRun
  end.
Lemma replay_runs p xs later a b : replay p xs later = Replayed a b ->
  exists i0 i j rest, iface_new p None = Value i0 /\ calls_run xs i0 = Value i /\ traversal (as_is i) (settings_of (if_pat i)) /\
    r_iface i0 (w_iface (as_is i) i) = Got j rest /\ watch later i = a /\ watch later j = b.
Proof.
  unfold replay. destruct (iface_new p None) as [i0|]; [|discriminate]. destruct (calls_run xs i0) as [i|] eqn:C; [|discriminate].
  destruct (distinct_keys _) eqn:D; [|discriminate]. destruct (r_iface i0 (w_iface (as_is i) i)) as [j rest| |] eqn:R; try discriminate.
  intros H. injection H as <- <-. exists i0, i, j, rest. pose proof (as_is_traversal i D). repeat (split; [first [reflexivity|assumption]|]). reflexivity.
Qed.
Lemma replay_fails p xs later : replay p xs later = Unreadable ->
  exists i0 i, iface_new p None = Value i0 /\ calls_run xs i0 = Value i /\ traversal (as_is i) (settings_of (if_pat i)) /\
    r_iface i0 (w_iface (as_is i) i) = BadBool.
Proof.
  unfold replay. destruct (iface_new p None) as [i0|]; [|discriminate]. destruct (calls_run xs i0) as [i|] eqn:C; [|discriminate].
  destruct (distinct_keys _) eqn:D; [|discriminate]. destruct (r_iface i0 (w_iface (as_is i) i)) as [j rest| |] eqn:R; try discriminate.
  intros _. exists i0, i. pose proof (as_is_traversal i D). auto.
Qed.
Definition row_for (s : standard) : list N := match s with LPDDR6 => long_row | LPDDR5 => row2 | _ => row1 end.
Definition a_read (s : standard) (t : N) : call := Do (cmd_at t RD 0 0 9 (row_for s)).
Definition a_write (s : standard) (t : N) : call := Do (cmd_at t WR 0 0 9 (row_for s)).
(* Two bursts, then another two after the checkpoint. *)
Definition first_part (s : standard) : list call := [Do (cmd_at 0 ACT 0 3 0 []); a_read s 20; a_write s 60].
Definition second_part (s : standard) : list step := [Call (a_read s 100); Ask 130 sim_stats0; Call (a_write s 140); Ask 200 sim_stats0].
Definition busy_bits (l : list reply) : list N := flat_map (fun r => match r with Stats (Value st) => [ones (ss_readBus st); ones (ss_writeBus st); ones (ss_readDBI st); ones (ss_writeDBI st); changes (ss_clock st)] | Done t => [t] | _ => [] end) l.
(* Both replies of a replay agree; the replay is one on which the interfaces really answer. *)
Definition answers (r : reply) : bool := match r with Stopped _ | Stats (Fails _) => false | _ => true end.
Definition good_replay (s : standard) (xs : list call) : bool :=
  match replay (spec_of_std s) xs (second_part s) with
  | Replayed a b => forallb answers a && (4 =? N.of_nat (length a))
  | _ => false
  end.
(* What a checkpoint loses. *)
Definition first_stats (l : list reply) : option sim_stats :=
  match flat_map (fun r => match r with Stats (Value st) => [st] | _ => [] end) l with st :: _ => Some st | [] => None end.
Definition differ_at (f : sim_stats -> N) (p : ifspec) (xs : list call) (later : list step) : option (N * N) :=
  match replay p xs later with
  | Replayed a b => match first_stats a, first_stats b with Some x, Some y => Some (f x, f y) | _, _ => None end
  | _ => None
  end.
Lemma differ_replay f p xs later m n : differ_at f p xs later = Some (m, n) -> m <> n ->
  exists i0 i j rest, iface_new p None = Value i0 /\ calls_run xs i0 = Value i /\ traversal (as_is i) (settings_of (if_pat i)) /\
    r_iface i0 (w_iface (as_is i) i) = Got j rest /\ watch later j <> watch later i.
Proof.
  unfold differ_at. intros H Hne. destruct (replay p xs later) as [a b| |] eqn:R; [|discriminate|discriminate].
  destruct (replay_runs _ _ _ _ _ R) as (i0 & i & j & rest & H1 & H2 & H3 & H4 & H5 & H6).
  exists i0, i, j, rest. repeat (split; [assumption|]). rewrite H5, H6. intros E. rewrite E in H.
  destruct (first_stats a) as [x|]; [|discriminate]. injection H as H7 H8. congruence.
Qed.
(* The bytes of the last beats after calls. *)
Definition beats_after (s : standard) (xs : list call) : option (list N) :=
  match iface_new (spec_of_std s) None with
  | Value i0 => match calls_run xs i0 with Value i => Some (kept_beats i) | _ => None end
  | _ => None
  end.
