(* C34 and C50 put together. *)
From Coq Require Import NArith QArith List Bool Arith Lia.
From Verif Require Import Base Command CoreModel Bits HistorySpec DeviceSpec ExampleCores BusModel WaveSpec StatsModel PatternModel PatternTables InterfaceModel InterfaceSpec InterfaceExamples
  ToggleModel DramModel DramSpec DramExamples ProgressSpec ProgressProofs ProgressTables ProgressQuery ProgressExamples.
Import ListNotations.
Local Open Scope N_scope.

Lemma interface_takes p sim i0 cs : sizes_ok p -> (fi_std p = LPDDR6 -> fi_groups p = 4) -> iface_new p sim = Value i0 -> trace_fits p (no_toggle sim) cs ->
  exists i, calls_run (map Do cs) i0 = Value i.
Proof. intros Sz G New F. destruct (trace_goes p sim i0 cs Sz G New F) as (i & R & _). now exists i. Qed.

Lemma types_agree p c s s' : ms_std (dp_core p) <> DDR5 -> same_kind p -> do_command (dp_core p) c s = Ok s' ->
  carried (fi_std (dp_if p)) (eight (fi_arch (dp_if p))) (cmd_type c) = true.
Proof.
  intros N5 [K1 K2] E. apply core_takes in E. rewrite K1, K2. destruct (carried (ms_std (dp_core p)) (ms_m8b (dp_core p)) (cmd_type c)) eqn:Q; [reflexivity|].
  destruct (proj1 (halves_differ _ _ _) (conj E Q)) as [A _]. contradiction.
Qed.

Lemma kinds s : same_kind (ex_dspec s).
Proof. destruct s; split; reflexivity. Qed.
Lemma other_time (s s' : core) t t' : get_last_command_time s = t -> get_last_command_time s' = t' -> t <> t' -> s' <> s.
Proof. intros A B N Q. subst s'. congruence. Qed.
Ltac formed := split; [repeat constructor|first [discriminate|intros _; split; [repeat constructor|reflexivity]]].

Lemma wake_half_way : exists p cs c t d0 d s,
  views_agree p /\ same_kind p /\ well_formed (dp_core p) /\ timely (dp_core p) (cs ++ [c]) t /\ legal_history (dp_core p) (cs ++ [c]) /\
  dram_new p = Value d0 /\ uses_run p (map Both cs) d0 = Returned d /\
  do_command (dp_core p) c (dr_core d) = Ok s /\ do_dram_command p c d = InterfaceStops Exception s /\ s <> dr_core d.
Proof.
  destruct half_ways as (H & _ & _). apply half_way_runs in H as (d0 & d & s & H1 & H2 & H3 & H4 & H5 & H6).
  exists (ex_dspec DDR5), sleep5, wake5, 1000, d0, d, s. split; [apply ex_views|]. split; [apply kinds|]. split; [formed|]. split; [show_timely|]. split; [show_legal|].
  split; [exact H1|]. split; [exact H2|]. split; [exact H3|]. split; [exact H4|]. eapply other_time; [exact H5|exact H6|discriminate].
Qed.
Lemma read_half_way std : exists p cs c t d0 d s,
  ms_std (dp_core p) = std /\ views_agree p /\ same_kind p /\ well_formed (dp_core p) /\ timely (dp_core p) (cs ++ [c]) t /\ legal_history (dp_core p) (cs ++ [c]) /\
  dram_new p = Value d0 /\ uses_run p (map Both cs) d0 = Returned d /\
  do_command (dp_core p) c (dr_core d) = Ok s /\ do_dram_command p c d = InterfaceStops Assertion s /\ s <> dr_core d.
Proof.
  destruct half_ways as (_ & H & _). rewrite Forall_forall in H. assert (In std five) as I by (unfold five; destruct std; cbn; auto 10). specialize (H std I).
  apply half_way_runs in H as (d0 & d & s & H1 & H2 & H3 & H4 & H5 & H6).
  exists (ex_dspec std), open_row, bare_read, 1000, d0, d, s. split; [reflexivity|]. split; [apply ex_views|]. split; [apply kinds|].
  split; [destruct std; formed|]. split; [destruct std; show_timely|]. split; [destruct std; show_legal|].
  split; [exact H1|]. split; [exact H2|]. split; [exact H3|]. split; [exact H4|]. eapply other_time; [exact H5|exact H6|discriminate].
Qed.
Lemma bank_half_way : exists p c t d0 s,
  ms_std (dp_core p) = LPDDR6 /\ views_agree p /\ same_kind p /\ well_formed (dp_core p) /\ timely (dp_core p) [c] t /\ legal_history (dp_core p) [c] /\
  cmd_bank c = 1 /\ dram_new p = Value d0 /\
  do_command (dp_core p) c (dr_core d0) = Ok s /\ do_dram_command p c d0 = InterfaceStops Assertion s /\ s <> dr_core d0.
Proof.
  destruct half_ways as (_ & _ & H). apply half_way_runs in H as (d0 & d & s & H1 & H2 & H3 & H4 & H5 & H6). injection H2 as <-.
  exists (ex_dspec LPDDR6), bank_one, 1000, d0, s. split; [reflexivity|]. split; [apply ex_views|]. split; [apply kinds|]. split; [formed|]. split; [show_timely|]. split; [show_legal|].
  split; [reflexivity|]. split; [exact H1|]. split; [exact H3|]. split; [exact H4|]. eapply other_time; [exact H5|exact H6|discriminate].
Qed.

Lemma in_five (P : standard -> Prop) : (forall s, P s) -> Forall P five.
Proof. intros H. apply Forall_forall. intros s _. apply H. Qed.
Lemma days_taken : Forall (fun s => sizes_ok (spec_of_std s) /\ (fi_std (spec_of_std s) = LPDDR6 -> fi_groups (spec_of_std s) = 4) /\
  Forall (command_ok (spec_of_std s) true) (day_commands s) /\
  match iface_new (spec_of_std s) None with Value i => match calls_run (map Do (day_commands s)) i with Value _ => true | _ => false end | _ => false end = true) five.
Proof.
  apply in_five. intros s. split; [destruct s; (split; [|split]); vm_compute; reflexivity|]. split; [destruct s; reflexivity|].
  split; [|destruct s; vm_compute; reflexivity]. eapply Forall_impl; [|exact (tf_commands _ _ _ (day_fits s))]. intros c H. exact (cf_time _ _ _ H).
Qed.
Lemma interface_case : Forall (fun s => trace_fits (spec_of_std s) true (day_commands s) /\ trace_fits (spec_of_std s) false (blind_commands s) /\
  Forall (fun c => cmd_ts c <= 1000) (day_commands s) /\
  match iface_new (spec_of_std s) None, iface_new (spec_of_std s) toggle_sim with Value _, Value _ => true | _, _ => false end = true) five.
Proof.
  apply in_five. intros s. split; [apply day_fits|]. split; [apply blind_fits|]. split; [|destruct s; vm_compute; reflexivity].
  apply Forall_forall. intros c H. assert (forallb (fun c => cmd_ts c <=? 1000) (day_commands s) = true) as K by (destruct s; vm_compute; reflexivity).
  rewrite forallb_forall in K. apply N.leb_le. now apply K.
Qed.
Lemma object_case : Forall (fun s =>
  (Forall command_or_query (full_day s) /\ nondecreasing 0 (map op_time (core_ops (full_day s))) /\ final_time 0 (map op_time (core_ops (full_day s))) <= 1000) /\
  (well_formed (dp_core (ex_dspec s)) /\ timely (dp_core (ex_dspec s)) (day_commands s) 1000 /\ legal_history (dp_core (ex_dspec s)) (day_commands s)) /\
  trace_fits (dp_if (ex_dspec s)) true (day_commands s) /\
  (timely (dp_core (ex_dspec s)) (blind_commands s) 1000 /\ legal_history (dp_core (ex_dspec s)) (blind_commands s)) /\
  trace_fits (dp_if (ex_dspec s)) false (blind_commands s) /\
  returns (ex_dspec s) (full_day s) = true /\ returns (with_sim (ex_dspec s) toggle_sim) (blind_day s) = true) five.
Proof.
  apply in_five. intros s. split; [apply day_uses|]. split; [apply day_legal|]. split; [apply day_fits|]. split; [apply blind_legal|]. split; [apply blind_fits|].
  split; destruct s; vm_compute; reflexivity.
Qed.
