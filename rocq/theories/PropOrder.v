(* C63: commands of the same cycle to different ranks or to different banks may be
   given in any order. *)
From Coq Require Import NArith QArith List Bool Permutation.
From Verif Require Import Base Command CoreModel HistorySpec DeviceSpec ExampleCores Bits StatsModel EnergyModel EnergySpec DramModel InterfaceExamples DramExamples ProgressExamples ProgressTop ChargeSpec ChargeTop
  ComposeExamples OrderSpec OrderProofs.
Import ListNotations.
Local Open Scope N_scope.

(* What is accepted in one order is accepted in the other. *)
Theorem C63_accepted : forall p cs cs' t, reordered p cs cs' -> timely p cs t -> legal_history p cs -> timely p cs' t /\ legal_history p cs'.
Proof. exact reordered_legal. Qed.
Print Assumptions C63_accepted.
(* All times and all counters are the same. *)
Theorem C63_statistics : forall p cs cs' t, reordered p cs cs' -> DeviceSpec.well_formed p -> timely p cs t -> legal_history p cs ->
  forall r, (r < ms_ranks p)%nat -> (exists v, rank_view p cs t r = Some v /\ rank_view p cs' t r = Some v) /\
  forall b, (b < ms_banks p)%nat -> (exists v, bank_view p cs t r b = Some v /\ bank_view p cs' t r b = Some v) /\
    forall k, exists n, bank_counter p cs t r b k = Some n /\ bank_counter p cs' t r b k = Some n.
Proof. exact reordered_views. Qed.
Print Assumptions C63_statistics.
(* So is the energy. *)
Theorem C63_energy : forall p cs cs' t, reordered p cs cs' -> DeviceSpec.well_formed p -> timely p cs t -> legal_history p cs ->
  forall e, EnergySpec.well_formed e -> same_memory p e ->
  exists s s' en en', run_core p cs (core_new p) = Ok s /\ run_core p cs' (core_new p) = Ok s' /\
    calc_energy e (fill_core (snd (window_stats p t s))) = Exactly en /\ calc_energy e (fill_core (snd (window_stats p t s'))) = Exactly en' /\ (en_total en == en_total en')%Q.
Proof. exact reordered_energy. Qed.
Print Assumptions C63_energy.
(* A row of bank 4 is opened while banks 0 and 7 are in use; a read with
   auto-precharge and a precharge change places with it. *)
Example C63_case : Forall (fun s => let p := memory s in
  let a := [cmd_at 0 ACT 0 3 0 []; cmd_at 0 ACT 7 3 0 []] in let z := [cmd_at 200 ACT 0 5 0 []; cmd_at 200 RD 4 3 0 []] in
  let c1 := cmd_at 40 RDA 0 3 0 [] in let c2 := cmd_at 40 ACT 4 3 0 [] in let c3 := cmd_at 40 PRE 7 3 0 [] in
  let cs := a ++ [c1; c2; c3] ++ z in
  reordered p cs (a ++ [c3; c2; c1] ++ z) /\ DeviceSpec.well_formed p /\ timely p cs 500 /\ legal_history p cs /\
  EnergySpec.well_formed (dp_ce (ex_dspec s)) /\ same_memory p (dp_ce (ex_dspec s))) five.
Proof.
  apply in_five. intros s. split.
  { assert (forall t k k' b b', k = RDA \/ k = ACT \/ k = PRE -> k' = RDA \/ k' = ACT \/ k' = PRE -> b <> b' -> apart (memory s) (cmd_at t k b 3 0 []) (cmd_at t k' b' 3 0 [])) as A.
    { intros t k k' b b' K K' B. split; [reflexivity|]. right. split; [destruct K as [->|[->| ->]]; reflexivity|]. split; [destruct K' as [->|[->| ->]]; reflexivity|].
      intros x H H'. apply B. apply Nnat.N2Nat.inj.
      assert (N.to_nat b = x) as -> by (destruct K as [->|[->| ->]]; destruct s; apply Nat.eqb_eq; (exact H || (rewrite PeanoNat.Nat.eqb_sym; exact H))).
      destruct K' as [->|[->| ->]]; destruct s; apply Nat.eqb_eq; (exact H' || (rewrite PeanoNat.Nat.eqb_sym; exact H')). }
    cbn [app].
    apply (R_swap _ [cmd_at 0 ACT 0 3 0 []; cmd_at 0 ACT 7 3 0 []] (cmd_at 40 RDA 0 3 0 []) (cmd_at 40 ACT 4 3 0 [])); [apply A; auto; discriminate|]. cbn [app].
    apply (R_swap _ [cmd_at 0 ACT 0 3 0 []; cmd_at 0 ACT 7 3 0 []; cmd_at 40 ACT 4 3 0 []] (cmd_at 40 RDA 0 3 0 []) (cmd_at 40 PRE 7 3 0 [])); [apply A; auto; discriminate|]. cbn [app].
    apply (R_swap _ [cmd_at 0 ACT 0 3 0 []; cmd_at 0 ACT 7 3 0 []] (cmd_at 40 ACT 4 3 0 []) (cmd_at 40 PRE 7 3 0 [])); [apply A; auto; discriminate|]. constructor. }
  split; [apply day_legal|]. split; [apply timely_by; destruct s; vm_compute; reflexivity|]. split; [|split; [apply ex_energy_formed|apply ex_same]].
  destruct s; (split; [cbn [app]; repeat constructor|]; intros r H; unfold legal; vm_compute in H; destruct r as [|r]; [vm_compute; discriminate|exfalso; apply le_S_n in H; inversion H]).
Qed.

(* On one bank the order counts: precharging and then opening a row leaves it open. *)
Theorem C63_any_order_refuted : exists p cs cs' t, DeviceSpec.well_formed p /\ Permutation cs cs' /\ map cmd_ts cs = map cmd_ts cs' /\ timely p cs t /\ legal_history p cs /\ legal_history p cs' /\
  rank_view p cs t 0 <> rank_view p cs' t 0.
Proof.
  exists (memory DDR4), [cmd_at 5 PRE 4 0 0 []; cmd_at 5 ACT 4 3 0 []], [cmd_at 5 ACT 4 3 0 []; cmd_at 5 PRE 4 0 0 []], 100.
  split; [apply day_legal|]. split; [apply perm_swap|]. split; [reflexivity|]. split; [apply timely_by; vm_compute; reflexivity|]. split; [show_legal|]. split; [show_legal|]. vm_compute. discriminate.
Qed.
Print Assumptions C63_any_order_refuted.
