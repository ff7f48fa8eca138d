From Coq Require Import NArith List Bool Lia Arith.
From Verif Require Import Base Command CoreModel HistorySpec CoreBasics CoreHistory DeviceSpec RefineBase RefineMain DeviceFacts ExampleCores RejectSpec.
Import ListNotations.
Local Open Scope N_scope.

Lemma same_ids_in p b : (0 < ms_banksPerGroup p)%nat -> (ms_groups p * ms_banksPerGroup p = ms_banks p)%nat ->
  forallb (fun i => Nat.ltb i (ms_banks p)) (same_bank_ids p b) = true.
Proof.
  intros H E. apply forallb_forall. intros x Hx. unfold same_bank_ids in Hx. apply in_map_iff in Hx as (g & <- & Hg). apply in_seq in Hg. apply Nat.ltb_lt.
  pose proof (Nat.mod_upper_bound b (ms_banksPerGroup p) ltac:(lia)). nia.
Qed.
Definition rank_reaction (p : memspec) (m : memState) (c : Command) : reaction :=
  match on_address p c, wants p (cmd_type c) with
  | Taken, Some w => if memState_eq_dec m (mem_of w) then Taken else Asserted
  | x, _ => x
  end.
Lemma reaction_action p c s : reaction_of (do_command p c s) =
  match dispatch p c with
  | A_none => Taken
  | A_unsupported => Asserted
  | A_throw => Thrown
  | A_rank f => match nth_error (co_ranks (process_queue p (cmd_ts c) s)) (N.to_nat (cmd_rank c)) with Some rk => reaction_of (f rk) | None => Asserted end
  end.
Proof.
  unfold do_command. cbv zeta. cbn [co_ranks co_queue co_last]. destruct (dispatch p c) as [| | |f]; try reflexivity. destruct (nth_error _ _) as [rk|]; [|reflexivity].
  destruct (f rk) as [[? ?]|[? ?]| |]; reflexivity.
Qed.
Lemma reaction_state p c s : well_formed p -> sizes_ok p s ->
  reaction_of (do_command p c s) =
  match nth_error (co_ranks (process_queue p (cmd_ts c) s)) (N.to_nat (cmd_rank c)) with Some rk => rank_reaction p (rk_memState rk) c | None => on_address p c end.
Proof.
  intros [_ W] Hs. pose proof (process_sizes p (cmd_ts c) s Hs) as [L B]. rewrite reaction_action.
  assert (match nth_error (co_ranks (process_queue p (cmd_ts c) s)) (N.to_nat (cmd_rank c)) with
          | Some rk => Nat.ltb (N.to_nat (cmd_rank c)) (ms_ranks p) = true /\ length (rk_banks rk) = ms_banks p
          | None => Nat.ltb (N.to_nat (cmd_rank c)) (ms_ranks p) = false end) as X.
  { destruct (nth_error _ _) as [rk|] eqn:E.
    - split; [apply Nat.ltb_lt; rewrite <- L; apply nth_error_Some; congruence|]. apply nth_error_In in E. rewrite Forall_forall in B. exact (B _ E).
    - apply Nat.ltb_ge. rewrite <- L. now apply nth_error_None. }
  unfold rank_reaction, on_address, dispatch, in_standard, wants. change (N.to_nat (cmd_bank c)) with (addr c).
  destruct (nth_error _ _) as [rk|].
  - destruct X as [X1 X2]. rewrite X1.
    destruct (cmd_type c); cbn beta iota; unfold on_bank, on_rank, on_banks; cbn beta iota; try reflexivity.
    all: try (rewrite X2; destruct (Nat.ltb (addr c) (ms_banks p)); reflexivity).
    all: try (destruct (ms_std p) eqn:S; reflexivity).
    all: try (unfold quiet_o, h_srefExit, h_pdaExit; destruct (ms_std p), (rk_memState rk); reflexivity).
    all: try (destruct (ms_std p) eqn:S; try reflexivity).
    all: try (rewrite X2; destruct (Nat.ltb (addr c) (ms_banks p)); reflexivity).
    all: try (unfold quiet_o, h_dsmEntry, h_dsmExit; destruct (rk_memState rk); reflexivity).
    all: try (destruct (W eq_refl) as [W1 W2]; pose proof (same_ids_in p (addr c) W1 W2) as Q; destruct (ms_banksPerGroup p); [lia|]; rewrite X2, Q; destruct (Nat.ltb (addr c) (ms_banks p)); reflexivity).
    + destruct (ms_m8b p); [reflexivity|]. cbn [negb]. rewrite X2. cbn [forallb]. unfold p2b_second.
      destruct (Nat.ltb (addr c) (ms_banks p)), (Nat.ltb ((addr c + ms_p2bOffset p) mod 16) (ms_banks p)); reflexivity.
    + rewrite X2. destruct (Nat.ltb (addr c) (ms_banks p) && Nat.ltb (N.to_nat (cmd_dbank c)) (ms_banks p)); reflexivity.
  - rewrite X. destruct (cmd_type c), (ms_std p); cbn beta iota; unfold on_bank, on_rank, on_banks; try reflexivity; try (destruct (ms_banksPerGroup p); reflexivity); destruct (ms_m8b p); reflexivity.
Qed.

(* ---- any history ---- *)
Theorem free_reaction p cs s c : well_formed p -> run_core p cs (core_new p) = Ok s -> wants p (cmd_type c) = None -> reaction_of (do_command p c s) = on_address p c.
Proof.
  intros W R F. rewrite reaction_state; [|exact W|exact (run_core_sizes _ _ _ _ (core_new_sizes p) R)].
  destruct (nth_error _ _) as [rk|]; [|reflexivity]. unfold rank_reaction. rewrite F. destruct (on_address p c); reflexivity.
Qed.
Theorem bad_address p cs s c : well_formed p -> run_core p cs (core_new p) = Ok s -> on_address p c <> Taken -> reaction_of (do_command p c s) = on_address p c.
Proof.
  intros W R F. rewrite reaction_state; [|exact W|exact (run_core_sizes _ _ _ _ (core_new_sizes p) R)].
  destruct (nth_error _ _) as [rk|]; [|reflexivity]. unfold rank_reaction. destruct (on_address p c); congruence.
Qed.
Theorem free_accepted p cs : well_formed p -> Forall (fun c => wants p (cmd_type c) = None) cs ->
  ((exists s, run_core p cs (core_new p) = Ok s) <-> Forall (fun c => on_address p c = Taken) cs).
Proof.
  intros W. induction cs as [|c cs IH] using rev_ind; intros F.
  - split; [constructor|]. intros _. exists (core_new p). reflexivity.
  - apply Forall_app in F as [F Fc]. inversion Fc as [|? ? H _]; subst. specialize (IH F). rewrite run_core_app. split.
    + intros [s E]. destruct (run_core p cs (core_new p)) as [s1| | |] eqn:R; try discriminate. apply Forall_app. split; [apply IH; eauto|]. constructor; [|constructor].
      rewrite <- (free_reaction p cs s1 c W R H), E. reflexivity.
    + intros A. apply Forall_app in A as [A Ac]. inversion Ac as [|? ? E _]; subst. destruct (proj2 IH A) as [s1 R]. rewrite R.
      rewrite <- (free_reaction p cs s1 c W R H) in E. destruct (do_command p c s1); try discriminate. eauto.
Qed.

(* ---- legal histories ---- *)
Theorem legal_reaction p cs c s : well_formed p -> timely p cs (cmd_ts c) -> legal_history p cs -> run_core p cs (core_new p) = Ok s ->
  reaction_of (do_command p c s) = reaction_in p (mode_before p cs c) c.
Proof.
  intros W T [LR L] R. rewrite reaction_state; [|exact W|exact (run_core_sizes _ _ _ _ (core_new_sizes p) R)]. set (r := N.to_nat (cmd_rank c)).
  pose proof (run_core_sizes _ _ _ _ (core_new_sizes p) R) as Z. pose proof (process_sizes p (cmd_ts c) s Z) as [Z1 _].
  destruct (nth_error (co_ranks (process_queue p (cmd_ts c) s)) r) as [rk|] eqn:E.
  - assert (r < ms_ranks p)%nat as Hr by (rewrite <- Z1; apply nth_error_Some; congruence).
    destruct (legal_sync p r cs (cmd_ts c) W T (L r Hr)) as (st & d & R1 & R2 & [S1 S2 S3]).
    destruct (proj_run p r cs s Hr (proj1 T) R) as (a & st1 & Pa & R3 & A). rewrite R1 in R3. injection R3 as <-.
    pose proof (proj_process p (cmd_ts c) s r (queue_sorted_reachable p cs s R)) as P. rewrite Pa in P. cbn [option_map] in P.
    rewrite (A (cmd_ts c) ltac:(apply T)) in P. unfold proj in P. rewrite E in P. assert (rk = fst (r_drain p (cmd_ts c) st)) as -> by (apply (f_equal (option_map fst)) in P; cbn [option_map fst] in P; congruence).
    rewrite (rl_mem _ _ _ _ _ _ S1). unfold rank_reaction, reaction_in, mode_before. fold r. rewrite device_at_dev. unfold dev.
    assert (filter (fun x => cmd_ts x <=? cmd_ts c) (filter (to_rank r) cs) = filter (to_rank r) cs) as ->.
    { assert (forall l, (forall x, In x l -> cmd_ts x <= cmd_ts c) -> filter (fun x => cmd_ts x <=? cmd_ts c) l = l) as Q.
      { induction l as [|x l IH]; intros H; [reflexivity|]. cbn [filter]. assert (cmd_ts x <=? cmd_ts c = true) as -> by (apply N.leb_le, H; left; reflexivity). f_equal. apply IH. intros y Hy. apply H. right. exact Hy. }
      apply Q. intros x Hx. apply filter_In in Hx as [Hx _]. pose proof (nondecreasing_le cs 0 x (proj1 T) Hx). destruct T as (_ & _ & T & _). lia. }
    rewrite R2. cbn [option_map]. destruct (on_address p c); try reflexivity. destruct (wants p (cmd_type c)) as [w|]; [|reflexivity].
    destruct (dv_mode (settle (cmd_ts c) d)), w; reflexivity.
  - unfold reaction_in. assert (on_address p c = Taken -> wants p (cmd_type c) = None) as H.
    { assert (Nat.ltb (N.to_nat (cmd_rank c)) (ms_ranks p) = false) as X by (apply Nat.ltb_ge; rewrite <- Z1; now apply nth_error_None).
      unfold on_address. rewrite X. destruct (cmd_type c); try reflexivity; cbn; destruct (ms_std p); discriminate. }
    destruct (on_address p c); try reflexivity. rewrite H by reflexivity. reflexivity.
Qed.
(* What is noticed: a mode that is not the one wanted. *)
Lemma mode_settles p d c : command p c d = None \/ exists d', command p c d = Some d'. Proof. destruct (command p c d); eauto. Qed.
Theorem noticed p cs c s : well_formed p -> timely p cs (cmd_ts c) -> legal_history p cs -> run_core p cs (core_new p) = Ok s -> on_address p c = Taken ->
  (reaction_of (do_command p c s) = Asserted <-> exists w, wants p (cmd_type c) = Some w /\ mode_before p cs c <> w) /\
  (reaction_of (do_command p c s) <> Asserted -> exists s', do_command p c s = Ok s').
Proof.
  intros W T L R A. rewrite (legal_reaction p cs c s W T L R) at 1. pose proof (legal_reaction p cs c s W T L R) as Q. unfold reaction_in in *. rewrite A in *.
  destruct (wants p (cmd_type c)) as [w|] eqn:E.
  - split.
    + destruct (smode_beq (mode_before p cs c) w) eqn:B.
      * apply internal_smode_dec_bl in B. split; [discriminate|]. intros (w' & E' & N'). congruence.
      * split; [|reflexivity]. intros _. exists w. split; [reflexivity|]. intros Q'. rewrite Q' in B. destruct w; discriminate.
    + intros H. rewrite Q in H. destruct (smode_beq (mode_before p cs c) w); [|congruence]. destruct (do_command p c s); try discriminate. eauto.
  - split; [split; [discriminate|]; intros (w & E' & _); congruence|]. intros _. destruct (do_command p c s); try discriminate. eauto.
Qed.
Lemma breach_unnoticed : forall std, exists p cs c s s', ms_std p = std /\ well_formed p /\ timely p cs (cmd_ts c) /\ legal_history p cs /\
  run_core p cs (core_new p) = Ok s /\ breach p cs c /\ do_command p c s = Ok s'.
Proof.
  intros std. exists (match std with DDR4 => ex_ddr4 | DDR5 => ex_ddr5 | LPDDR4 => ex_lpddr4 | LPDDR5 => ex_lpddr5 | LPDDR6 => ex_lpddr6 end), [at_ 0 ACT 0 1], (at_ 30 ACT 0 1).
  destruct std; do 2 eexists; (split; [reflexivity|]); (split; [split; [vm_compute; repeat constructor|intros H; try discriminate H; vm_compute; repeat constructor]|]); (split; [show_timely|]); (split; [show_legal|]);
    (split; [vm_compute; reflexivity|]); (split; [vm_compute; reflexivity|]); vm_compute; reflexivity.
Qed.
