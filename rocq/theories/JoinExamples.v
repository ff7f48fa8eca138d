(* A trace of each standard run twice, and traces that do not add up. *)
From Coq Require Import NArith QArith String List Bool Ascii Arith Lia.
From Verif Require FormatProofs.
From Verif Require Import Base Command CoreModel Bits WaveSpec ToggleModel StatsModel EnergyModel IfEnergyModel IfEnergySpec InterfaceModel InterfaceSpec HistorySpec DeviceSpec ExampleCores
  InterfaceExamples DramModel DramSpec ProgressSpec ProgressExamples ChargeSpec ComposeSpec ComposeMain ComposeExamples CsvModel CliModel CliSpec CsvProofs CliProofs CliTop CliExamples
  MemSpecModel MemSpecSpec MemSpecProofs PropMemSpec WholeSpec WholeWires WholeProofs WholeExamples JoinSpec JoinProofs JoinTop.
Import ListNotations.
Local Open Scope N_scope.

Definition overb (p : ifspec) (bus : bool) (T : N) (c : Command) : bool :=
  (cmd_ts c <=? T) &&
  (silent (fi_std p) (cmd_type c) || (cmd_ts c * ca_beats (fi_std p) + N.of_nat (length (command_words p bus c)) <? T * ca_beats (fi_std p))) &&
  (match transfers (cmd_type c) with Some _ => cmd_ts c * fi_rate p + burst_beats p bus c <? T * fi_rate p | None => true end).
Lemma quiet_by p bus cs T : forallb (overb p bus T) cs = true -> quiet p bus cs T.
Proof.
  intros H. rewrite forallb_forall in H. apply Forall_forall. intros c Hc. specialize (H c Hc). unfold overb in H.
  apply andb_prop in H as [H H3]. apply andb_prop in H as [H1 H2]. apply N.leb_le in H1. split; [exact H1|]. split.
  - intros S. rewrite S in H2. apply N.ltb_lt in H2. exact H2.
  - intros S. destruct (transfers (cmd_type c)); [apply N.ltb_lt in H3; exact H3|contradiction].
Qed.
Definition timeb (p : ifspec) (bus : bool) (c : Command) : bool :=
  (cmd_ts c * ca_beats (fi_std p) + 64 <? two64) && (cmd_ts c + burst_cycles p bus c <? two64) && (cmd_ts c * fi_rate p + burst_beats p bus c <? two64).
Lemma in_time_by p bus cs : forallb (timeb p bus) cs = true -> Forall (in_time p bus) cs.
Proof.
  intros H. rewrite forallb_forall in H. apply Forall_forall. intros c Hc. specialize (H c Hc). unfold timeb in H.
  apply andb_prop in H as [H H3]. apply andb_prop in H as [H1 H2]. apply N.ltb_lt in H1, H2, H3. split; [split; assumption|]. intros _. exact H3.
Qed.

Lemma run_capable s : exists m, mem_new (ex_whole s) = Value m /\ capable (views m None ex_grow None) /\
  soundly (views m None ex_grow None) run_commands /\ ends run_commands = 400 /\
  rests (core_view m) run_commands 400 /\ quiet (interface_view m ex_grow None) true run_commands 400 /\
  timely (core_view m) (run_commands ++ later 400 run_commands) (400 + 400) /\ Forall (in_time (interface_view m ex_grow None) true) (later 400 run_commands) /\
  countable (interface_view m ex_grow None) (400 + 400).
Proof.
  destruct (ex_sound s) as [So Hb]. destruct (sound_works (ex_whole s) None ex_grow None So Hb Logic.I) as (m & d & M & D & W1 & W2 & W3 & W4).
  destruct (run_meets s) as (m' & M' & R1 & R2 & R3 & [R4 R5] & _). rewrite M in M'. apply FormatProofs.value_inj in M'. subst m'.
  exists m. split; [exact M|]. destruct (parts_agree (ex_whole s) m None ex_grow None M) as [V SM].
  split; [split; auto; [exists d; exact D|exact Logic.I]|].
  split; [split; unfold ends; rewrite ?R3; assumption|]. split; [exact R3|].
  assert (Value m = Value m) as E by reflexivity. rewrite <- M in E at 1. clear -E R1.
  destruct s; vm_compute in E; apply FormatProofs.value_inj in E; subst m;
    (split; [apply rests_by; [exact R1|vm_compute; reflexivity]|]); (split; [apply quiet_by; vm_compute; reflexivity|]); (split; [apply timely_by; vm_compute; reflexivity|]);
    (split; [apply in_time_by; vm_compute; reflexivity|vm_compute; reflexivity]).
Qed.

(* The text of the trace and of the trace twice. *)
Definition again_lines : list line :=
  [mkLine (map bare ["410"; "ACT"; "0"; "0"; "0"; "3"; "0"]%string) [lf];
   mkLine (map bare ["430"; "RD"; "0"; "0"; "0"; "3"; "9"; hex32]%string) [lf];
   mkLine (map bare ["460"; "WR"; "0"; "0"; "0"; "3"; "17"; hex32]%string) [lf];
   mkLine (map bare ["500"; "PRE"; "0"; "0"; "0"; "3"; "0"]%string) [lf];
   mkLine (map bare ["550"; "REFA"; "0"; "0"; "0"; "0"; "0"]%string) [lf];
   mkLine (map bare ["800"; "END"; "0"; "0"; "0"; "0"; "0"]%string) [lf]].
Lemma again_read : parse_command_list (lines_text run_lines) = Value (Some run_commands) /\
  parse_command_list (lines_text (run_lines ++ again_lines)) = Value (Some (run_commands ++ later 400 run_commands)).
Proof. split; vm_compute; reflexivity. Qed.

(* Without a beat at rest in between, the first command of the second trace does
   not start from the level at rest. *)
Lemma no_pause : exists p cs1 cs2 T t st1 st2 st, InterfaceSpec.sizes_ok p /\ trace_fits p true cs1 /\ trace_fits p true cs2 /\ trace_fits p true (cs1 ++ later T cs2) /\
  Forall (fun c => cmd_ts c < T) cs1 /\
  stats_after p None (map Do cs1) T = Value st1 /\ stats_after p None (map Do cs2) t = Value st2 /\ stats_after p None (map Do (cs1 ++ later T cs2)) (T + t) = Value st /\
  ss_commandBus st <> WaveSpec.add_exact (ss_commandBus st1) (ss_commandBus st2).
Proof.
  exists (spec_of_std DDR4), [cmd_at 9 ACT 0 5 0 []], [cmd_at 0 ACT 4 5 0 []], 10, 10. do 3 eexists.
  split; [vm_compute; repeat split|]. split; [show_fits|]. split; [show_fits|]. split; [cbn [app later map delay]; show_fits|]. split; [repeat constructor|].
  split; [vm_compute; reflexivity|]. split; [vm_compute; reflexivity|]. split; [vm_compute; reflexivity|]. vm_compute. discriminate.
Qed.
(* Estimated counts are rounded down once for the whole time. *)
Lemma rounded_once : exists p d cs1 cs2 T t st1 st2 st, InterfaceSpec.sizes_ok p /\ good_toggle d /\ trace_fits p false cs1 /\ trace_fits p false cs2 /\ quiet p false cs1 T /\
  stats_after p (Some d) (map Do cs1) T = Value st1 /\ stats_after p (Some d) (map Do cs2) t = Value st2 /\ stats_after p (Some d) (map Do (cs1 ++ later T cs2)) (T + t) = Value st /\
  ones (ss_togRead st1) + ones (ss_togRead st2) < ones (ss_togRead st).
Proof.
  exists (spec_of_std DDR4), (mkToggle (1#2) (1#3) TogL (1#2) (1#2) TogH), [cmd_at 9 RD 0 5 0 []], [cmd_at 0 RD 4 5 0 []], 30, 30. do 3 eexists.
  split; [vm_compute; repeat split|]. split; [repeat split; discriminate|]. split; [show_fits|]. split; [show_fits|]. split; [apply quiet_by; vm_compute; reflexivity|].
  split; [vm_compute; reflexivity|]. split; [vm_compute; reflexivity|]. split; [vm_compute; reflexivity|]. vm_compute. reflexivity.
Qed.
