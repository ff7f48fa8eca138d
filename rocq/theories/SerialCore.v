(* C29: a core written and read back. *)
From Coq Require Import NArith List Bool Lia.
From Verif Require Import Base Command CoreModel HistorySpec CoreBasics ExampleCores SerialModel SerialProofs.
Import ListNotations.
Local Open Scope N_scope.

Lemma run_ops_sizes p os s s' a : sizes_ok p s -> run_ops p os s = Ok (s', a) -> sizes_ok p s'.
Proof.
  revert s a. induction os as [|o os IH]; cbn [run_ops]; intros s a Hs H.
  - injection H as <- <-. exact Hs.
  - destruct o as [c|t].
    + destruct (do_command p c s) as [s1|s1| |] eqn:E; try discriminate. eapply IH; [| exact H ]. eapply do_command_sizes; eassumption.
    + unfold window_stats in H. destruct (run_ops p os (process_queue p t s)) as [[s2 r]|[s2 r]| |] eqn:E; try discriminate.
      injection H as <- _. eapply IH; [| exact E ]. apply process_sizes. exact Hs.
Qed.
Lemma shape_of_sizes p a b : sizes_ok p a -> sizes_ok p b -> same_shape a b.
Proof.
  unfold sizes_ok, same_shape. intros [La Fa] [Lb Fb]. assert (L : length (co_ranks a) = length (co_ranks b)) by lia. clear La Lb.
  revert Fa Fb L. generalize (co_ranks b). induction (co_ranks a) as [|x xs IH]; intros [|y ys] Fa Fb L; try discriminate L; constructor.
  - apply Forall_inv in Fa. apply Forall_inv in Fb. unfold nbk in *. lia.
  - apply IH; [ exact (Forall_inv_tail Fa) | exact (Forall_inv_tail Fb) |]. cbn in L. lia.
Qed.

Lemma core_written_and_read p os0 t a0 os s a rest :
  run_ops p os0 (core_new p) = Ok (t, a0) -> run_ops p os (core_new p) = Ok (s, a) ->
  r_core t (w_core s ++ rest) = Got (mkCore (co_ranks s) (co_queue t) (co_last s)) rest.
Proof.
  intros H0 H. apply reads_core. eapply shape_of_sizes; eapply run_ops_sizes; try apply core_new_sizes; eassumption.
Qed.
Lemma core_restored p os0 t a0 os s a rest :
  run_ops p os0 (core_new p) = Ok (t, a0) -> is_serializable t = true ->
  run_ops p os (core_new p) = Ok (s, a) -> is_serializable s = true ->
  r_core t (w_core s ++ rest) = Got s rest.
Proof.
  intros H0 E0 H E. erewrite core_written_and_read by eassumption.
  unfold is_serializable in *. destruct s as [rs [|] l]; [| discriminate E ]. destruct (co_queue t); [| discriminate E0 ]. reflexivity.
Qed.
Lemma checkpoint_invisible p os0 t a0 os s a rest :
  run_ops p os0 (core_new p) = Ok (t, a0) -> is_serializable t = true ->
  run_ops p os (core_new p) = Ok (s, a) -> is_serializable s = true ->
  exists t', r_core t (w_core s ++ rest) = Got t' rest /\
             get_last_command_time t' = get_last_command_time s /\ forall later, run_ops p later t' = run_ops p later s.
Proof. intros H0 E0 H E. exists s. split; [ eapply core_restored; eassumption |]. split; reflexivity. Qed.

(* ---- when a core may be written ---- *)

Lemma drained_serializable p t s : (forall e, In e (co_queue s) -> fst e <= t) -> is_serializable (fst (window_stats p t s)) = true.
Proof.
  intro H. unfold window_stats, is_serializable, process_queue. cbn [fst]. revert H.
  generalize (co_ranks s) (co_last s). induction (co_queue s) as [|[ts x] q IH]; intros rs l H; cbn [ich_process]; [ reflexivity |].
  destruct (N.leb_spec ts t) as [L|L]; [ apply IH; intros e E; apply H; right; exact E |].
  specialize (H (ts, x) (or_introl eq_refl)). cbn in H. lia.
Qed.

(* ---- a core that may not ---- *)

Definition ser_act : Command := mkCommand 0 ACT 0 0 0 0 0 0 [] 0.
Definition ser_rda : Command := mkCommand 30 RDA 0 0 0 0 0 0 [] 0.
Definition ser_ops : list op := [Cmd ser_act; Cmd ser_rda].
(* The written core is asked at 100, the restored one too. *)
Definition ser_differ (p : memspec) (os0 os : list op) (later : list op) : option (core * core * core * list core_stats * list core_stats) :=
  match run_ops p os0 (core_new p), run_ops p os (core_new p) with
  | Ok (t, _), Ok (s, _) =>
      match r_core t (w_core s) with
      | Got t' _ => match run_ops p later s, run_ops p later t' with
                    | Ok (_, a), Ok (_, b) => Some (t, s, t', a, b)
                    | _, _ => None
                    end
      | _ => None
      end
  | _, _ => None
  end.
Lemma ser_differ_runs p os0 os later t s t' a b : ser_differ p os0 os later = Some (t, s, t', a, b) ->
  (exists x, run_ops p os0 (core_new p) = Ok (t, x)) /\ (exists x, run_ops p os (core_new p) = Ok (s, x)) /\
  (exists r, r_core t (w_core s) = Got t' r) /\ (exists x, run_ops p later s = Ok (x, a)) /\ (exists x, run_ops p later t' = Ok (x, b)).
Proof.
  unfold ser_differ. intro H.
  destruct (run_ops p os0 (core_new p)) as [[t0 x0]|[]| |]; try discriminate.
  destruct (run_ops p os (core_new p)) as [[s0 y0]|[]| |]; try discriminate.
  destruct (r_core t0 (w_core s0)) as [t1 r1| |] eqn:R; try discriminate.
  destruct (run_ops p later s0) as [[? ?]|[]| |] eqn:L1; try discriminate.
  destruct (run_ops p later t1) as [[? ?]|[]| |] eqn:L2; try discriminate.
  injection H as -> -> -> -> ->. repeat split; eauto.
Qed.
(* Cycles a bank was open. *)
Definition open_cycles (a : list core_stats) : list N := flat_map (fun s => map (fun b => cy_act (bs_cycles b)) (st_bank s)) a.
Lemma pending_lost :
  exists p os s x t' r a b, run_ops p os (core_new p) = Ok (s, x) /\ is_serializable s = false /\
    r_core (core_new p) (w_core s) = Got t' r /\
    (exists y, run_ops p [Query 100] s = Ok (y, a)) /\ (exists y, run_ops p [Query 100] t' = Ok (y, b)) /\
    nth_error (open_cycles a) 0 = Some 38 /\ nth_error (open_cycles b) 0 = Some 100.
Proof.
  destruct (ser_differ ex_ddr4 [] ser_ops [Query 100]) as [[[[[t s] t'] a] b]|] eqn:E; [| exfalso; revert E; vm_compute; discriminate ].
  pose proof E as E'. apply ser_differ_runs in E'. destruct E' as [[x0 R0] [[x1 R1] [[r R] [[y1 L1] [y2 L2]]]]].
  cbn in R0. injection R0 as <- _.
  assert (V : is_serializable s = false /\ nth_error (open_cycles a) 0 = Some 38 /\ nth_error (open_cycles b) 0 = Some 100).
  { revert E. vm_compute. intro E. injection E as <- <- <- <-. repeat split. }
  destruct V as [V1 [V2 V3]].
  exists ex_ddr4, ser_ops, s, x1, t', r, a, b. repeat split; eauto.
Qed.
Lemma busy_target :
  exists p os0 t x0 t' r a b, run_ops p os0 (core_new p) = Ok (t, x0) /\ is_serializable t = false /\
    r_core t (w_core (core_new p)) = Got t' r /\
    (exists y, run_ops p [Cmd ser_act; Query 100] (core_new p) = Ok (y, a)) /\ (exists y, run_ops p [Cmd ser_act; Query 100] t' = Ok (y, b)) /\
    nth_error (open_cycles a) 0 = Some 100 /\ nth_error (open_cycles b) 0 = Some 38.
Proof.
  destruct (ser_differ ex_ddr4 ser_ops [] [Cmd ser_act; Query 100]) as [[[[[t s] t'] a] b]|] eqn:E; [| exfalso; revert E; vm_compute; discriminate ].
  pose proof E as E'. apply ser_differ_runs in E'. destruct E' as [[x0 R0] [[x1 R1] [[r R] [[y1 L1] [y2 L2]]]]].
  cbn in R1. injection R1 as <- _.
  assert (V : is_serializable t = false /\ nth_error (open_cycles a) 0 = Some 100 /\ nth_error (open_cycles b) 0 = Some 38).
  { revert E. vm_compute. intro E. injection E as <- <- <- <-. repeat split. }
  destruct V as [V1 [V2 V3]].
  exists ex_ddr4, ser_ops, t, x0, t', r, a, b. repeat split; eauto.
Qed.
