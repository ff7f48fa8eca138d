(* C62: bounds on the power of the core.  Between two times the energy grows at
   least as if the smallest standby current flowed and at most as if the largest
   one did and every command came on top; it never falls. *)
From Coq Require Import NArith QArith List Bool.
From Verif Require Import Base Command CoreModel HistorySpec DeviceSpec Bits StatsModel EnergyModel EnergySpec EnergyMore DramModel DramSpec DramExamples ProgressExamples ProgressTop ChargeSpec ChargeTop
  ComposeExamples BoundSpec BoundProofs BoundTop.
Import ListNotations.
Local Open Scope Q_scope.

(* Commands a before t1, commands b between t1 and t2.  Rows that are open at t1 may
   be closed later, which is drawn on top. *)
Theorem C62_window : forall p e I a b t1 t2, DeviceSpec.well_formed p -> EnergySpec.well_formed e -> same_memory p e -> sane e -> backgrounds e I ->
  timely p (a ++ b) t2 -> legal_history p (a ++ b) ->
  (final_time 0 (map cmd_ts a) <= t1)%N -> (t1 <= t2)%N -> (forall c, In c b -> (t1 <= cmd_ts c)%N) ->
  forall lo hi, (forall w, In w (es_domains e) -> always_draws e w (lo w) /\ never_exceeds e w (I w) (hi w)) ->
  exists x1 x2, core_energy p e a t1 x1 /\ core_energy p e (a ++ b) t2 x2 /\
    x1 + constant_draw e lo (t2 - t1) <= x2 /\
    x2 <= x1 + constant_draw e hi (t2 - t1) + commands_draw e I b + rows_draw p e a t1.
Proof. exact window_bounds. Qed.
Print Assumptions C62_window.
Example C62_window_case : Forall (fun s => let e := dp_ce (ex_dspec s) in
  DeviceSpec.well_formed (memory s) /\ EnergySpec.well_formed e /\ same_memory (memory s) e /\ sane e /\ backgrounds e (bg e) /\
  timely (memory s) (firstn 3 (day_commands s) ++ skipn 3 (day_commands s)) 1000 /\ legal_history (memory s) (firstn 3 (day_commands s) ++ skipn 3 (day_commands s)) /\
  ((final_time 0 (map cmd_ts (firstn 3 (day_commands s))) <= 100)%N /\ forall c, In c (skipn 3 (day_commands s)) -> (100 <= cmd_ts c)%N) /\
  forall w, In w (es_domains e) -> always_draws e w (1#2000) /\ never_exceeds e w (bg e w) (1#20)) five.
Proof.
  apply in_five. intros s. rewrite firstn_skipn. destruct (day_legal s) as (A & B & C). split; [exact A|]. split; [apply ex_energy_formed|]. split; [apply ex_same|].
  split; [apply ex_dspec_sane|]. split; [intros w _; apply bg_exists, ex_energy_formed|]. split; [exact B|]. split; [exact C|]. split; [apply day_split|apply ex_draws].
Qed.

(* From power-on. *)
Theorem C62_whole : forall p e I cs t, DeviceSpec.well_formed p -> EnergySpec.well_formed e -> same_memory p e -> sane e -> backgrounds e I ->
  timely p cs t -> legal_history p cs ->
  forall lo hi, (forall w, In w (es_domains e) -> always_draws e w (lo w) /\ never_exceeds e w (I w) (hi w)) ->
  exists x, core_energy p e cs t x /\ constant_draw e lo t <= x /\ x <= constant_draw e hi t + commands_draw e I cs.
Proof. exact floor_ceiling. Qed.
Print Assumptions C62_whole.
(* Half a milliampere at 1.05 V for a microsecond and a quarter. *)
Example C62_whole_case : constant_draw (dp_ce (ex_dspec DDR4)) (fun _ => 1#2000) 1000 == (105#100) * (1#2000) * 1250.
Proof. vm_compute. reflexivity. Qed.

(* The energy never falls, whatever is executed. *)
Theorem C62_grows : forall p e a b t1 t2, DeviceSpec.well_formed p -> EnergySpec.well_formed e -> same_memory p e -> sane e ->
  timely p (a ++ b) t2 -> legal_history p (a ++ b) ->
  (final_time 0 (map cmd_ts a) <= t1)%N -> (t1 <= t2)%N -> (forall c, In c b -> (t1 <= cmd_ts c)%N) ->
  exists x1 x2, core_energy p e a t1 x1 /\ core_energy p e (a ++ b) t2 x2 /\ x1 <= x2.
Proof. exact grows. Qed.
Print Assumptions C62_grows.
Example C62_grows_case : Forall (fun s => sane (dp_ce (ex_dspec s)) /\ ((final_time 0 (map cmd_ts (firstn 3 (day_commands s))) <= 100)%N /\ forall c, In c (skipn 3 (day_commands s)) -> (100 <= cmd_ts c)%N)) five.
Proof. apply in_five. intros s. split; [apply ex_dspec_sane|apply day_split]. Qed.

(* An object that is asked for its energy at t1, used further, and asked again. *)
Theorem C62_object : forall p us vs t1 t2 d0 d1 d2 d1' d2' st1 st2, views_agree p -> (ms_std (dp_core p) = DDR5 -> es_groups (dp_ce p) = ms_groups (dp_core p)) ->
  DeviceSpec.well_formed (dp_core p) -> EnergySpec.well_formed (dp_ce p) -> sane (dp_ce p) ->
  dram_new p = Value d0 -> uses_run p us d0 = Returned d1 -> dram_window p t1 d1 = Returned (d1', st1) ->
  uses_run p vs d1' = Returned d2 -> dram_window p t2 d2 = Returned (d2', st2) ->
  nondecreasing 0 (map op_time (core_ops us) ++ t1 :: map op_time (core_ops vs) ++ [t2]) ->
  let cs := HistorySpec.commands (core_ops (us ++ vs)) in
  timely (dp_core p) cs t2 -> legal_history (dp_core p) cs ->
  exists en1 en2, calc_core_stats p st1 = Exactly en1 /\ calc_core_stats p st2 = Exactly en2 /\ en_total en1 <= en_total en2.
Proof. exact object_grows. Qed.
Print Assumptions C62_object.
Example C62_object_case : Forall (fun s => let us := firstn 2 (full_day s) in let vs := skipn 3 (full_day s) in
  views_agree (ex_dspec s) /\ es_groups (dp_ce (ex_dspec s)) = ms_groups (dp_core (ex_dspec s)) /\ sane (dp_ce (ex_dspec s)) /\
  match dram_new (ex_dspec s) with
  | Value d0 => match uses_run (ex_dspec s) us d0 with
    | Returned d1 => match dram_window (ex_dspec s) 30 d1 with
      | Returned (d1', _) => match uses_run (ex_dspec s) vs d1' with
        | Returned d2 => match dram_window (ex_dspec s) 1000 d2 with Returned _ => True | _ => False end
        | _ => False end
      | _ => False end
    | _ => False end
  | _ => False end /\
  nondecreasing 0 (map op_time (core_ops us) ++ 30%N :: map op_time (core_ops vs) ++ [1000%N]) /\ HistorySpec.commands (core_ops (us ++ vs)) = day_commands s) five.
Proof.
  apply in_five. intros s. split; [apply ex_views|]. split; [destruct s; reflexivity|]. split; [apply ex_dspec_sane|]. split; [destruct s; vm_compute; exact Logic.I|].
  split; [destruct s; vm_compute; repeat split; discriminate|destruct s; reflexivity].
Qed.
