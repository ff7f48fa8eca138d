(* Days with the inversion on that are taken, and one that is refused. *)
From Coq Require Import NArith List Bool Arith Lia.
From Verif Require Import Base Command CoreModel Bits BusModel WaveSpec ToggleModel PinModel StatsModel InterfaceModel InterfaceSpec WireSpec InterfaceExamples WireExamples LineSpec FlagSpec FlagExamples
  ProgressSpec TakenSpec TakenExamples InvertSpec.
Import ListNotations.
Local Open Scope N_scope.

Definition day_size (s : standard) : N := 8 * N.of_nat (length (shout s)).
Lemma invert_days :
  Forall (fun s => fi_std (spec_of_std s) <> LPDDR6 /\ 1000 * fi_rate (spec_of_std s) + 64 < two64 /\ Forall plain_call (flag_day s) /\
                   Forall (dressed (spec_of_std s) true) (commands (flag_day s)) /\ Forall (same_size (day_size s) true) (commands (flag_day s)) /\
                   Forall (fun c => cmd_ts c <= 1000) (commands (flag_day s)))
         [DDR4; DDR5; LPDDR4; LPDDR5].
Proof.
  repeat (apply Forall_cons; [|]); [..|apply Forall_nil].
  all: split; [discriminate|]. all: split; [vm_compute; reflexivity|]. all: split; [repeat constructor|]. all: cbn [commands flag_day app flat_map].
  all: split; [show_dressed|]. all: split.
  1,3,5,7: repeat (apply Forall_cons; [intros _ T; first [exfalso; apply T; reflexivity|split; reflexivity]|]); apply Forall_nil.
  all: repeat (apply Forall_cons; [vm_compute; discriminate|]); apply Forall_nil.
Qed.

(* Two full bursts of DDR4 with time between them. *)
Definition loud : list N := [255; 0; 255; 0; 255; 0; 255; 0].
Definition loud_a : Command := cmd_at 20 RD 0 0 9 loud.
Definition loud_b : Command := cmd_at 60 RD 0 0 9 loud.
Definition loud_before : list call := [SetDbi false; Do (cmd_at 10 ACT 0 5 0 [])].
Definition loud_day : list call := loud_before ++ [SetDbi true; Do loud_a; Do loud_b].
Lemma loud_hyps : let p := spec_of_std DDR4 in
  sizes_ok p /\ has_dbi p = true /\ 1000 * fi_rate p + 64 < two64 /\ Forall (fun c => cmd_ts c <= 1000 /\ data_ok p c) (commands loud_before ++ [loud_a; loud_b]) /\ (0 < flag_lines p)%nat /\
  sends true loud_a = true /\ sends true loud_b = true /\ last (line_flags p 0 loud_a) false = true /\ cmd_ts loud_a * fi_rate p + burst_beats p true loud_a < cmd_ts loud_b * fi_rate p /\
  (pin_capacity (fi_std p) <= length (line_flags p 0 loud_b))%nat.
Proof.
  cbv zeta. split; [split; [reflexivity|split; reflexivity]|]. split; [reflexivity|]. split; [reflexivity|]. split.
  { cbn [commands loud_before app flat_map]. split_cmds. all: split; [discriminate|]. all: intros S; try discriminate S; clear S. all: split; [discriminate|]. all: split; [repeat constructor|]. all: split; [discriminate|reflexivity]. }
  split; [vm_compute; lia|]. split; [reflexivity|]. split; [reflexivity|]. split; [vm_compute; reflexivity|]. split; [vm_compute; reflexivity|]. vm_compute. lia.
Qed.
Lemma loud_allowed : Forall plain_call loud_day /\ Forall (dressed (spec_of_std DDR4) true) (commands loud_day) /\ Forall (same_size 64 true) (commands loud_day) /\
  Forall (fun c => cmd_ts c <= 1000) (commands loud_day) /\ trace_allowed (spec_of_std DDR4) true (commands loud_day).
Proof.
  split; [repeat constructor|]. cbn [commands loud_day loud_before app flat_map]. split; [unfold loud_a, loud_b; show_dressed|]. split.
  { repeat (apply Forall_cons; [intros _ T; first [exfalso; apply T; reflexivity|split; reflexivity]|]); apply Forall_nil. }
  split; [repeat (apply Forall_cons; [vm_compute; discriminate|]); apply Forall_nil|]. constructor.
  - repeat (apply Forall_cons; [constructor; [reflexivity|discriminate|intros T; first [exfalso; apply T; reflexivity|vm_compute; reflexivity]|discriminate|intros _ _; vm_compute; lia]|]); apply Forall_nil.
  - vm_compute. repeat split; discriminate.
  - vm_compute. repeat split; discriminate.
  - vm_compute. exact I.
Qed.
Lemma short_days : Forall (fun s => in_order 0 (commands (flag_day s)) /\ Forall (fun c => transfers (cmd_type c) <> None -> short_burst (spec_of_std s) c) (commands (flag_day s))) [DDR4; DDR5; LPDDR4; LPDDR5].
Proof.
  repeat (apply Forall_cons; [|]); [..|apply Forall_nil]. all: cbn [commands flag_day app flat_map]. all: split; [repeat split; discriminate|].
  all: repeat (apply Forall_cons; [intros _; vm_compute; discriminate|]); apply Forall_nil.
Qed.
Lemma asserted {A B} (m : result A) (f : A -> result B) : match m with Value x => match f x with Fails Assertion => true | _ => false end | _ => false end = true -> exists x, m = Value x /\ f x = Fails Assertion.
Proof. destruct m as [x|]; [|discriminate]. intros H. exists x. split; [reflexivity|]. destruct (f x) as [|[]]; try discriminate. reflexivity. Qed.
Lemma loud_refused : exists p i0 size xs, sizes_ok p /\ iface_new p None = Value i0 /\ Forall plain_call xs /\ Forall (dressed p true) (commands xs) /\ Forall (same_size size true) (commands xs) /\
  trace_allowed p true (commands xs) /\ calls_run xs i0 = Fails Assertion.
Proof.
  destruct (asserted (iface_new (spec_of_std DDR4) None) (calls_run loud_day)) as (i0 & New & R); [vm_compute; reflexivity|]. exists (spec_of_std DDR4), i0, 64, loud_day.
  destruct loud_allowed as (A1 & A2 & A3 & _ & A4). split; [split; [reflexivity|split; reflexivity]|]. split; [exact New|]. split; [exact A1|]. split; [exact A2|]. split; [exact A3|]. split; [exact A4|exact R].
Qed.
