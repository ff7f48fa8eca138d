(* The day of DramExamples with another payload, and with other rows and columns. *)
From Coq Require Import NArith List Bool Lia.
From Verif Require Import Base Command CoreModel Bits HistorySpec BusModel ToggleModel StatsModel StatsSpec InterfaceModel InterfaceSpec InterfaceExamples DramModel DramSpec DramExamples ProgressExamples IndepSpec.
Import ListNotations.
Local Open Scope N_scope.

Definition change (f : Command -> Command) (u : use) : use :=
  match u with Both c => Both (f c) | CoreOnly c => CoreOnly (f c) | Iface (Do c) => Iface (Do (f c)) | _ => u end.
Definition other_payload (c : Command) : Command :=
  mkCommand (cmd_ts c) (cmd_type c) (cmd_bank c) (cmd_bankGroup c) (cmd_rank c) (cmd_row c) (cmd_column c) (cmd_dbank c) (map (fun b => 255 - b) (cmd_data c)) (cmd_sz_bits c).
Definition other_place (c : Command) : Command :=
  mkCommand (cmd_ts c) (cmd_type c) (cmd_bank c) (cmd_bankGroup c + 1) (cmd_rank c) (cmd_row c + 4) (cmd_column c + 6) (cmd_dbank c) (cmd_data c) (cmd_sz_bits c).
Lemma changed (R : Command -> Command -> Prop) f us : (forall c, R c (f c)) -> Forall2 (matching R) us (map (change f) us).
Proof. intros H. induction us as [|[c|c|[]|] us IH]; constructor; try exact IH; constructor; apply H. Qed.
Lemma payload_changed us : Forall2 (matching but_payload) us (map (change other_payload) us).
Proof. apply changed. repeat split. Qed.
Lemma place_changed us : Forall2 (matching but_place) us (map (change other_place) us).
Proof. apply changed. repeat split. Qed.
Definition changed_runs (f : Command -> Command) (n : bus_name) (s : standard) : bool :=
  match dram_after (ex_dspec s) (dram_day s) 200, dram_after (ex_dspec s) (map (change f) (dram_day s)) 200 with
  | Some (_, a), Some (_, b) => negb (bus_eqb (StatsSpec.bus_at a n) (StatsSpec.bus_at b n))
  | _, _ => false
  end.
Lemma changed_runs_true f n s : changed_runs f n s = true -> exists d0 d e d1 e1 st st', dram_new (ex_dspec s) = Value d0 /\
  uses_run (ex_dspec s) (dram_day s) d0 = Returned d /\ uses_run (ex_dspec s) (map (change f) (dram_day s)) d0 = Returned e /\
  dram_window (ex_dspec s) 200 d = Returned (d1, st) /\ dram_window (ex_dspec s) 200 e = Returned (e1, st') /\ StatsSpec.bus_at st n <> StatsSpec.bus_at st' n.
Proof.
  unfold changed_runs. destruct (dram_after (ex_dspec s) (dram_day s) 200) as [[d1 st]|] eqn:A; [|discriminate].
  destruct (dram_after (ex_dspec s) (map (change f) (dram_day s)) 200) as [[e1 st']|] eqn:B; [|discriminate]. intros H.
  apply dram_after_runs in A as (d0 & d & A1 & A2 & A3). apply dram_after_runs in B as (d0' & e & B1 & B2 & B3). rewrite A1 in B1. injection B1 as <-.
  exists d0, d, e, d1, e1, st, st'. repeat (split; [assumption|]). intros E. rewrite E in H. unfold bus_eqb in H. rewrite !N.eqb_refl in H. discriminate.
Qed.
(* Where only estimates are made: bursts whose bits fill the lines. *)
Definition estimated_runs (s : standard) : bool :=
  match dram_new (with_sim (ex_dspec s) toggle_sim) with
  | Value d => match d_mode (if_data (dr_if d)), dram_after (with_sim (ex_dspec s) toggle_sim) (dram_day s) 200, dram_after (with_sim (ex_dspec s) toggle_sim) (map (change other_payload) (dram_day s)) 200 with
               | ModeToggling, Some _, Some _ => true
               | _, _, _ => false
               end
  | Fails _ => false
  end.
Lemma estimated_runs_true s : estimated_runs s = true -> exists d0 d e x y, dram_new (with_sim (ex_dspec s) toggle_sim) = Value d0 /\ d_mode (if_data (dr_if d0)) = ModeToggling /\
  uses_run (with_sim (ex_dspec s) toggle_sim) (dram_day s) d0 = Returned d /\ uses_run (with_sim (ex_dspec s) toggle_sim) (map (change other_payload) (dram_day s)) d0 = Returned e /\
  dram_window (with_sim (ex_dspec s) toggle_sim) 200 d = Returned x /\ dram_window (with_sim (ex_dspec s) toggle_sim) 200 e = Returned y.
Proof.
  unfold estimated_runs. destruct (dram_new (with_sim (ex_dspec s) toggle_sim)) as [d0|] eqn:N; [|discriminate]. destruct (d_mode (if_data (dr_if d0))) eqn:M; [discriminate|].
  destruct (dram_after _ (dram_day s) 200) as [x|] eqn:A; [|discriminate]. destruct (dram_after _ (map _ _) 200) as [y|] eqn:B; [|discriminate]. intros _.
  apply dram_after_runs in A as (a & d & A1 & A2 & A3). apply dram_after_runs in B as (b & e & B1 & B2 & B3). rewrite N in A1, B1. injection A1 as <-. injection B1 as <-.
  exists d0, d, e, x, y. auto 8.
Qed.
Lemma estimated s : estimated_runs s = true. Proof. destruct s; vm_compute; reflexivity. Qed.
Lemma other_runs s : changed_runs other_payload ReadBus s = true /\ changed_runs other_place CommandBus s = true.
Proof. destruct s; (split; vm_compute; reflexivity). Qed.
