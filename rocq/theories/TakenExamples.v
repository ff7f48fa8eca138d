(* Concrete traces that are taken and traces that are refused. *)
From Coq Require Import NArith QArith List Bool Arith Lia.
From Verif Require Import Base Command CoreModel Bits HistorySpec DeviceSpec ExampleCores BusModel WaveSpec StatsModel PatternModel PatternTables InterfaceModel InterfaceSpec InterfaceExamples
  ToggleModel DramModel DramSpec DramExamples ProgressSpec ProgressExamples TakenSpec TakenProofs.
Import ListNotations.
Local Open Scope N_scope.

Lemma day_dressed s : Forall (dressed (spec_of_std s) true) (day_commands s).
Proof.
  apply fits_dressed; [apply day_fits|]. intros _. destruct s; cbv [day_commands full_day app core_ops flat_map HistorySpec.commands];
    repeat (apply Forall_cons; [intros H; first [exfalso; apply H; reflexivity|discriminate]|]); apply Forall_nil.
Qed.
Lemma blind_dressed s : Forall (dressed (spec_of_std s) false) (blind_commands s).
Proof. apply fits_dressed; [apply blind_fits|discriminate]. Qed.

(* Two reads in a row, a cycle apart. *)
Definition crowded (s : standard) : list Command := [cmd_at 0 ACT 4 3 0 []; cmd_at 20 RD 4 0 9 (burst_row s); cmd_at 21 RD 4 0 9 (burst_row s)].
Ltac show_dressed :=
  repeat (apply Forall_cons; [constructor; [split; vm_compute; reflexivity|intros _; vm_compute; reflexivity|
      let H := fresh in intros H _; first [exfalso; apply H; reflexivity|discriminate]
      |intros _; first [left; reflexivity|right; split; [vm_compute; discriminate|repeat constructor]]
      |let H := fresh in intros r H _; first [discriminate H|vm_compute; reflexivity]
      |let H := fresh in intros H; first [exfalso; apply H; reflexivity|intros F; first [discriminate F|split; [left; vm_compute; reflexivity|right; left; reflexivity]]]]|]); apply Forall_nil.
Lemma crowded_dressed s : Forall (dressed (spec_of_std s) true) (crowded s).
Proof. destruct s; cbv [crowded]; show_dressed. Qed.
Definition refused (s : standard) (cs : list Command) : bool :=
  match iface_new (spec_of_std s) None with Value i0 => match calls_run (map Do cs) i0 with Value _ => false | Fails f => match f with Assertion => true | _ => false end end | Fails _ => false end.
(* Two reads that announce data and bring none. *)
Definition announced (t : N) : Command := mkCommand t RD 4 0 0 0 9 0 [] 256.
Lemma overlap_unseen : exists i0 i, iface_new (spec_of_std DDR5) None = Value i0 /\ calls_run (map Do [announced 20; announced 22]) i0 = Value i /\
  ~ no_overlap 0 (bursts (spec_of_std DDR5) true true [announced 20; announced 22]).
Proof.
  assert (match iface_new (spec_of_std DDR5) None with Value i0 => match calls_run (map Do [announced 20; announced 22]) i0 with Value _ => true | _ => false end | _ => false end = true) as E by (vm_compute; reflexivity).
  destruct (iface_new (spec_of_std DDR5) None) as [i0|] eqn:N; [|discriminate]. destruct (calls_run (map Do [announced 20; announced 22]) i0) as [i|] eqn:R; [|discriminate].
  exists i0, i. split; [reflexivity|]. split; [exact R|]. vm_compute. intros (_ & H & _). now apply H.
Qed.
