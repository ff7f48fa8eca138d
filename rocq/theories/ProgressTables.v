(* Which commands the two halves of an object take. *)
From Coq Require Import NArith QArith List Bool Arith Lia.
From Verif Require Import Base Command CoreModel Bits BusModel WaveSpec BusProofs ClockProofs ToggleModel PinModel DbiModel DbiPinModel StatsModel PatternModel PatternTables FormatProofs
  InterfaceModel InterfaceSpec InterfaceCa InterfaceRun InterfaceTop ProgressSpec ProgressProofs.
Import ListNotations.
Local Open Scope N_scope.
Ltac Zify.zify_post_hook ::= idtac.

Lemma core_takes p c s s' : do_command p c s = Ok s' -> core_command (ms_std p) (ms_m8b p) (cmd_type c) = true.
Proof.
  unfold do_command. intros E. assert (dispatch p c <> A_unsupported /\ dispatch p c <> A_throw) as [H1 H2] by (split; intros Q; rewrite Q in E; discriminate).
  clear E. unfold dispatch in *. destruct (cmd_type c); try reflexivity; destruct (ms_std p); try reflexivity; try (exfalso; apply H1; reflexivity).
  unfold core_command, device_command. cbn. destruct (ms_m8b p); [exfalso; apply H2; reflexivity|reflexivity].
Qed.
Lemma core_refuses p c s : core_command (ms_std p) (ms_m8b p) (cmd_type c) = false -> do_command p c s = Asserts \/ exists s', do_command p c s = Throws s'.
Proof.
  intros H. unfold do_command. assert (dispatch p c = A_unsupported \/ dispatch p c = A_throw) as [-> | ->]; [|left; reflexivity|right; eexists; reflexivity].
  unfold dispatch. destruct (cmd_type c); try (exfalso; discriminate H); destruct (ms_std p); try (exfalso; discriminate H); try (left; reflexivity).
  unfold core_command, device_command in H. cbn in H. destruct (ms_m8b p); [right; reflexivity|discriminate].
Qed.

Lemma bus_types p c i i' : if_spec i = p -> pat_inv p (if_pat i) -> handle_command_bus c i = Value i' ->
  match fi_std p with LPDDR6 => lpddr6_patterns (cmd_type c) <> [] | _ => table_of p (cmd_type c) <> [] end /\
  (fi_std p = LPDDR6 -> fi_groups p = 4 -> cmd_bank c mod 4 = 0).
Proof.
  intros Sp V E. unfold handle_command_bus in E. unfold pat_inv in V. destruct (if_pat i) as [h|h]; apply bind_inv in E as (x & X & _).
  - destruct V as (V1 & V2 & V3). unfold command_pattern in X. rewrite V2 in X.
    assert (table_of p (cmd_type c) <> []) as K by (intros Q; rewrite Q in X; discriminate).
    split; [destruct (fi_std p); try exact K; contradiction|]. intros Q. contradiction.
  - destruct V as (V1 & V2 & V3). unfold command_pattern6 in X. rewrite V2 in X. rewrite V1.
    split; [intros Q; rewrite Q in X; discriminate|]. intros _ G. destruct (lpddr6_patterns (cmd_type c)) as [|d l]; [discriminate|].
    unfold encode6 in X. rewrite V3, G in X. cbn [N.eqb] in X. apply bind_inv in X as (y & X & _). apply check_inv in X as [X _]. apply N.eqb_eq in X. cbn [coord_of co_dbank] in X.
    unfold lpddr6_dbank in X. replace 16 with (4 * 4) in X by reflexivity. rewrite N.mod_mul_r in X by discriminate.
    rewrite (N.mul_comm 4), N.mod_add in X by discriminate. rewrite N.mod_mod in X by discriminate. rewrite N.add_mod in X by discriminate.
    change (8 mod 4) with 0 in X. rewrite N.add_0_r, N.mod_mod in X by discriminate. exact X.
Qed.
Lemma bus_carried p t : routing p t = ToBus \/ (exists read, routing p t = ToData read) ->
  match fi_std p with LPDDR6 => lpddr6_patterns t <> [] | _ => table_of p t <> [] end -> carried (fi_std p) (eight (fi_arch p)) t = true.
Proof.
  unfold routing, table_of. intros H T. destruct (fi_std p); [| | |destruct (fi_arch p)|]; destruct t; try reflexivity;
    try (exfalso; apply T; reflexivity); exfalso; destruct H as [H|(read & H)]; discriminate H.
Qed.
Lemma quiet_carried p t : routing p t = ToEnd \/ routing p t = ToNothing -> carried (fi_std p) (eight (fi_arch p)) t = true /\ (fi_std p = LPDDR6 -> t = END_OF_SIMULATION).
Proof.
  unfold routing. intros H. destruct (fi_std p); [| | |destruct (fi_arch p)|]; destruct t; destruct H as [H|H]; try discriminate H; split; reflexivity || discriminate.
Qed.
Lemma pulse_needs k t n rate k' : t + n / rate < two64 -> pulse k t n rate = Value k' -> 0 < n / rate.
Proof.
  intros T E. unfold pulse in E. destruct (rate =? 0); [discriminate|]. apply bind_inv in E as (k1 & E1 & E). unfold clock_start in E1. destruct (ck_start k); [discriminate|].
  apply value_inj in E1. subst k1. unfold clock_stop in E. cbn [ck_start] in E. apply check_inv in E as [E _]. apply N.ltb_lt in E. unfold u64_add in E. rewrite N.mod_small in E by exact T. lia.
Qed.
Lemma dqs_needs p bus c read i i' : if_spec i = p -> cmd_ts c + burst_cycles p bus c < two64 -> handle_dqs c read (burst_beats p bus c) i = Value i' -> strobed p read = true -> 0 < burst_cycles p bus c.
Proof.
  intros Sp T E S. unfold handle_dqs in E. rewrite Sp in E. unfold strobed in S. unfold burst_cycles in *.
  destruct (fi_std p); cbn [two_clocks] in S.
  1,2,3: destruct read; apply bind_inv in E as (k & E & _); eapply pulse_needs; eassumption.
  all: apply bind_inv in E as (k & E1 & E); apply bind_inv in E as (k' & E2 & _); destruct (fi_wck_on p); [|eapply pulse_needs; eassumption]; destruct read; [|discriminate S];
    eapply pulse_needs; eassumption.
Qed.
Lemma taken_needs p bus c i i' : if_spec i = p -> is_bus (d_mode (if_data i)) = bus -> sizes_ok p -> (fi_std p = LPDDR6 -> fi_groups p = 4) -> pat_inv p (if_pat i) -> command_ok p bus c ->
  if_command c i = Value i' -> command_needs p bus c.
Proof.
  intros Sp Mo Sz G V [_ Ok] E. unfold if_command in E. rewrite Sp in E. apply bind_inv in E as (j & E & _).
  pose proof (transfers_routing p (cmd_type c)) as Tr.
  destruct (routing p (cmd_type c)) as [|read| | | |] eqn:R; try discriminate.
  - destruct (bus_types p c i j Sp V E) as [B1 B2]. constructor.
    + apply bus_carried; [now left|exact B1].
    + intros S _. exact (B2 S (G S)).
    + intros read T. rewrite T in Tr. discriminate Tr.
  - destruct (transfers (cmd_type c)) as [r|] eqn:T; [|exfalso; eapply Tr; reflexivity]. injection Tr as <-.
    unfold handle_data in E. apply bind_inv in E as (x & X & E). destruct (burst_effect p bus c read i x Sp Mo Sz X) as (d & y & buf & -> & _). cbn [fst snd] in E.
    apply bind_inv in E as (i1 & D & E). apply bind_inv in E as (i2 & B & _).
    destruct (overrides_ready p bus c read i1) as [V1 _]; [| | exact T|].
    + destruct (dqs_effect p bus c read (if_with_data i d y buf) i1) as (r & w & k & -> & _); [exact Sp|exact T|exact Ok|exact D|]. exact Sp.
    + destruct (dqs_effect p bus c read (if_with_data i d y buf) i1) as (r & w & k & -> & _); [exact Sp|exact T|exact Ok|exact D|]. exact V.
    + destruct (overrides_spec i1 (burst_beats p bus c) read) as (h & Eh). rewrite Eh in *.
      assert (if_spec i1 = p) as Sp1 by (destruct (dqs_effect p bus c read (if_with_data i d y buf) i1) as (r & w & k & -> & _); [exact Sp|exact T|exact Ok|exact D|exact Sp]).
      destruct (bus_types p c (if_with_pat i1 h) i2 Sp1 V1 B) as [B1 B2]. constructor.
      * apply bus_carried; [right; now exists read|exact B1].
      * intros S _. exact (B2 S (G S)).
      * intros r Q S. rewrite T in Q. injection Q as <-. eapply dqs_needs; [|exact Ok|exact D|exact S]. exact Sp.
  - destruct (quiet_carried p (cmd_type c) (or_introl R)) as [Q1 Q2]. constructor; [exact Q1| |].
    + intros S N. contradiction (N (Q2 S)).
    + intros read T. rewrite T in Tr. discriminate Tr.
  - destruct (quiet_carried p (cmd_type c) (or_intror R)) as [Q1 Q2]. constructor; [exact Q1| |].
    + intros S N. contradiction (N (Q2 S)).
    + intros read T. rewrite T in Tr. discriminate Tr.
Qed.
Theorem run_needs p sim i0 : sizes_ok p -> (fi_std p = LPDDR6 -> fi_groups p = 4) -> iface_new p sim = Value i0 ->
  forall xs i, Forall (command_ok p (no_toggle sim)) (commands xs) -> calls_run xs i0 = Value i -> Forall (command_needs p (no_toggle sim)) (commands xs).
Proof.
  intros Sz G New. induction xs as [|x xs IH] using rev_ind; intros i F R; [constructor|].
  rewrite commands_app in *. apply Forall_app in F as [F1 F2]. unfold calls_run in R. rewrite BusProofs.loop_app in R. apply bind_inv in R as (j & R1 & R).
  apply Forall_app. split; [eapply IH; eassumption|]. destruct x as [c| | | | |]; try constructor; [|constructor].
  pose proof (run_inv_top p sim i0 xs j Sz G New F1 R1) as V. cbn [loop call_do] in R. apply bind_inv in R as (k & R & _).
  eapply taken_needs; [exact (rn_spec _ _ _ _ _ V)|exact (rn_mode _ _ _ _ _ V)|exact Sz|exact G|exact (rn_pat _ _ _ _ _ V)| |exact R]. now inversion F2.
Qed.

Lemma halves_differ s e t : (core_command s e t = true /\ carried s e t = false) <-> (s = DDR5 /\ t = SREFEX).
Proof. split; [|intros [-> ->]; split; reflexivity]. intros [H1 H2]. destruct s, t; try discriminate H1; try discriminate H2; try (split; reflexivity); destruct e; discriminate. Qed.
Lemma halves_differ_back s e t : (core_command s e t = false /\ carried s e t = true) <-> (s = LPDDR6 /\ t = NOP).
Proof. split; [|intros [-> ->]; split; reflexivity]. intros [H1 H2]. destruct s, t; try discriminate H1; try discriminate H2; try (split; reflexivity); destruct e; discriminate. Qed.
