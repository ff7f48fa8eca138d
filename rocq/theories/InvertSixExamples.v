(* A day of LPDDR6 with the inversion on, and bursts of two sizes. *)
From Coq Require Import NArith List Bool Arith Lia.
From Verif Require Import Base Command CoreModel Bits BusModel WaveSpec ToggleModel PinModel PatternModel PatternTables StatsModel InterfaceModel InterfaceSpec WireSpec InterfaceExamples WireExamples FlagExamples
  ProgressSpec TakenSpec TakenExamples InvertSpec.
Import ListNotations.
Local Open Scope N_scope.

Lemma six_day : let p := spec_of_std LPDDR6 in sizes_ok p /\ fi_std p = LPDDR6 /\ fi_groups p = 4 /\ Forall plain_call (flag_day LPDDR6) /\
  Forall (dressed p true) (commands (flag_day LPDDR6)) /\ Forall (same_size 256 true) (commands (flag_day LPDDR6)).
Proof.
  cbv zeta. split; [split; [reflexivity|split; reflexivity]|]. split; [reflexivity|]. split; [reflexivity|]. split; [repeat constructor|]. cbn [commands flag_day app flat_map]. split; [show_dressed|].
  repeat (apply Forall_cons; [intros _ T; first [exfalso; apply T; reflexivity|split; reflexivity]|]); apply Forall_nil.
Qed.

(* std::vector<bool> hands out whole words of 64 flags. *)
Definition wordy : ifspec := mkIfspec LPDDR6 2 24 12 1 1 2 1 false MBG 4 (fun n => Nat.max n 64) (Some (fun _ => false)).
Definition two_sizes : list Command := [cmd_at 10 ACT 0 5 0 []; cmd_at 20 RD 0 0 9 long_row; cmd_at 60 RD 0 0 9 (long_row ++ long_row)].
Lemma two_sizes_dressed : Forall (dressed wordy true) two_sizes.
Proof.
  unfold two_sizes. repeat (apply Forall_cons; [constructor; [split; vm_compute; reflexivity|intros _; vm_compute; reflexivity|
      let H := fresh in intros H _; first [exfalso; apply H; reflexivity|discriminate]
      |intros _; first [left; reflexivity|right; split; [vm_compute; discriminate|repeat constructor]]
      |let H := fresh in intros r H _; first [discriminate H|vm_compute; reflexivity]
      |let H := fresh in intros H; first [exfalso; apply H; reflexivity|intros _; split;
         [first [left; vm_compute; reflexivity|right; vm_compute; reflexivity]|first [right; left; vm_compute; reflexivity|right; right; split; [vm_compute; reflexivity|discriminate]]]]]|]); apply Forall_nil.
Qed.
Theorem two_sizes_refused : exists p i0 cs i, sizes_ok p /\ fi_std p = LPDDR6 /\ fi_groups p = 4 /\ iface_new p None = Value i0 /\ Forall (dressed p true) cs /\
  calls_run (map Do cs) i0 = Value i /\ calls_run (SetDbi true :: map Do cs) i0 = Fails UB.
Proof.
  assert (match iface_new wordy None with
          | Value i0 => match calls_run (map Do two_sizes) i0, calls_run (SetDbi true :: map Do two_sizes) i0 with Value _, Fails UB => true | _, _ => false end
          | Fails _ => false end = true) as E by (vm_compute; reflexivity).
  destruct (iface_new wordy None) as [i0|] eqn:N; [|discriminate]. destruct (calls_run (map Do two_sizes) i0) as [i|] eqn:R; [|discriminate].
  exists wordy, i0, two_sizes, i. split; [split; [reflexivity|split; reflexivity]|]. split; [reflexivity|]. split; [reflexivity|]. split; [exact N|]. split; [exact two_sizes_dressed|]. split; [exact R|].
  destruct (calls_run (SetDbi true :: map Do two_sizes) i0) as [|[]]; try discriminate. reflexivity.
Qed.
