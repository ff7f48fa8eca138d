(* The object takes exactly the histories whose commands the interface allows. *)
From Coq Require Import NArith QArith List Bool Arith Lia.
From Verif Require Import Base Command CoreModel Bits BusModel WaveSpec BitFacts ListFacts StorageProofs BusProofs BusMore ToggleModel ToggleProofs DataProofs ClockProofs
  PinModel DbiModel DbiPinModel StatsModel PatternModel PatternTables FormatProofs InterfaceModel InterfaceSpec WireSpec InterfaceCa InterfaceRun InterfaceTop InterfaceData HistorySpec DeviceSpec DeviceTop CoreHistory DramModel DramSpec DramProofs ProgressSpec ProgressProofs.
From Verif Require Import ProgressQuery ProgressTables TakenSpec TakenProofs.
Import ListNotations.
Local Open Scope N_scope.
Ltac Zify.zify_post_hook ::= idtac.

Theorem object_exactly p us d0 t : dram_new p = Value d0 -> Forall command_or_query us ->
  nondecreasing 0 (map op_time (core_ops us)) -> final_time 0 (map op_time (core_ops us)) <= t -> t * ca_beats (fi_std (dp_if p)) + 64 < two64 -> t * fi_rate (dp_if p) < two64 ->
  sizes_ok (dp_if p) -> (fi_std (dp_if p) = LPDDR6 -> fi_groups (dp_if p) = 4) ->
  let cs := HistorySpec.commands (core_ops us) in
  well_formed (dp_core p) -> timely (dp_core p) cs t -> legal_history (dp_core p) cs -> Forall (dressed (dp_if p) (no_toggle (dp_sim p))) cs ->
  ((exists d, uses_run p us d0 = Returned d) <-> trace_allowed (dp_if p) (no_toggle (dp_sim p)) cs).
Proof.
  intros New P O Fn T1 T2 Sz G cs Wf Ti Le Dr. split.
  - intros (d & U). destruct (uses_split _ _ _ _ U) as [_ R]. unfold dram_new in New. apply bind_inv in New as (i0 & New & D). apply value_inj in D. subst d0. cbn [dr_if] in R.
    rewrite (plain_calls us P) in R. exact (proj1 (taken_allowed _ _ _ Sz G New _ _ Dr R)).
  - intros A. exact (object_goes p us d0 t New P O Fn T1 T2 Sz G Wf Ti Le (allowed_fits _ _ _ Dr A)).
Qed.
