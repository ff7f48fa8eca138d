(* C57: what single commands change.  The core looks only at the time, kind, rank
   and banks of a command.  A read or write without auto-precharge leaves all
   times and all later commands as they are and adds its own energy; precharging
   closed banks changes nothing; and commands to different ranks do not interact. *)
From Coq Require Import NArith QArith List Bool.
From Verif Require Import Base Command CoreModel HistorySpec DeviceSpec ExampleCores StatsModel EnergyModel EnergySpec EnergyExamples IfEnergyModel Bits InterfaceModel InterfaceSpec InterfaceExamples
  DramModel DramSpec DramExamples ProgressSpec ProgressProofs ProgressQuery ProgressExamples ProgressTop ChargeSpec ChargeProofs ChargeTop
  ComposeExamples LocalSpec LocalProofs.
Import ListNotations.
Local Open Scope N_scope.

(* From any state, including those after errors. *)
Theorem C57_core_sees : forall p cs cs', Forall2 alike cs cs' -> forall s, run_core p cs s = run_core p cs' s.
Proof. exact alike_run. Qed.
Print Assumptions C57_core_sees.
Example C57_core_sees_case :
  Forall2 alike [mkCommand 0 ACT 1 0 0 5 0 0 [] 0; mkCommand 12 RD 1 0 0 5 3 0 [170; 85] 16] [mkCommand 0 ACT 1 3 0 9 0 0 [] 0; mkCommand 12 RD 1 1 0 7 8 0 [] 0].
Proof. repeat constructor. Qed.

(* With and without a silent command in the middle of a legal trace: a read, a
   write, a precharge of closed banks, NOP or the end marker. *)
Theorem C57_without_accepted : forall p a z c t, timely p (a ++ c :: z) t -> legal_history p (a ++ c :: z) -> silent p a c -> legal_history p (a ++ z).
Proof. exact without_legal. Qed.
Print Assumptions C57_without_accepted.
Theorem C57_rank_times : forall p a z c t, DeviceSpec.well_formed p -> timely p (a ++ c :: z) t -> legal_history p (a ++ c :: z) -> silent p a c ->
  forall r, (r < ms_ranks p)%nat -> exists v, rank_view p (a ++ z) t r = Some v /\ rank_view p (a ++ c :: z) t r = Some v.
Proof. exact without_rank. Qed.
Print Assumptions C57_rank_times.
Theorem C57_bank_times : forall p a z c t, DeviceSpec.well_formed p -> timely p (a ++ c :: z) t -> legal_history p (a ++ c :: z) -> silent p a c ->
  forall r b, (r < ms_ranks p)%nat -> (b < ms_banks p)%nat -> exists v, bank_view p (a ++ z) t r b = Some v /\ bank_view p (a ++ c :: z) t r b = Some v.
Proof. exact without_bank. Qed.
Print Assumptions C57_bank_times.
Theorem C57_counters : forall p a z c t, DeviceSpec.well_formed p -> timely p (a ++ c :: z) t -> legal_history p (a ++ c :: z) -> silent p a c ->
  forall r b k, (r < ms_ranks p)%nat -> (b < ms_banks p)%nat ->
  exists n, bank_counter p (a ++ z) t r b k = Some n /\
    bank_counter p (a ++ c :: z) t r b k = Some (n + (if one_for k c && (r =? N.to_nat (cmd_rank c))%nat && (b =? N.to_nat (cmd_bank c))%nat then 1 else 0)).
Proof. exact without_counter. Qed.
Print Assumptions C57_counters.
Theorem C57_energy : forall p a z c t, DeviceSpec.well_formed p -> timely p (a ++ c :: z) t -> legal_history p (a ++ c :: z) -> silent p a c ->
  forall e I, EnergySpec.well_formed e -> same_memory p e -> backgrounds e I ->
  exists s s' en en', run_core p (a ++ z) (core_new p) = Ok s /\ run_core p (a ++ c :: z) (core_new p) = Ok s' /\
    calc_energy e (fill_core (snd (window_stats p t s))) = Exactly en /\ calc_energy e (fill_core (snd (window_stats p t s'))) = Exactly en' /\
    (en_total en' == en_total en + qnat (es_devices e) * qsum (fun w => pw_v w * command_charge e w (I w) c) (es_domains e))%Q.
Proof. exact without_energy. Qed.
Print Assumptions C57_energy.
(* The read in the traces of all five standards. *)
Example C57_access_case : Forall (fun s => exists a c z, day_commands s = a ++ c :: z /\ cmd_type c = RD /\ silent (dp_core (ex_dspec s)) a c /\
  (DeviceSpec.well_formed (dp_core (ex_dspec s)) /\ timely (dp_core (ex_dspec s)) (day_commands s) 1000 /\ legal_history (dp_core (ex_dspec s)) (day_commands s)) /\
  EnergySpec.well_formed (dp_ce (ex_dspec s)) /\ same_memory (dp_core (ex_dspec s)) (dp_ce (ex_dspec s)) /\ exists I, backgrounds (dp_ce (ex_dspec s)) I) five.
Proof.
  apply in_five. intros s. exists (firstn 1 (day_commands s)), (nth 1 (day_commands s) (cmd_at 0 NOP 0 0 0 [])), (skipn 2 (day_commands s)).
  split; [destruct s; reflexivity|]. split; [destruct s; reflexivity|]. split; [left; left; destruct s; reflexivity|]. split; [apply day_legal|].
  split; [apply ex_energy_formed|]. split; [apply ex_same|]. apply backgrounds_exist, ex_energy_formed.
Qed.
(* A precharge of all banks after all of them have been closed. *)
Example C57_precharge_case : let p := dp_core (ex_dspec DDR4) in
  let a := [cmd_at 0 ACT 4 3 0 []; cmd_at 30 PREA 0 0 0 []] in let c := cmd_at 50 PREA 0 0 0 [] in let z := [cmd_at 60 ACT 4 3 0 []] in
  timely p (a ++ c :: z) 100 /\ legal_history p (a ++ c :: z) /\ silent p a c.
Proof.
  split; [apply timely_by; vm_compute; reflexivity|]. split; [show_legal|]. right. left. split; [right; left; reflexivity|].
  intros d H. vm_compute in H. injection H as <-. intros i b H _. apply nth_error_In in H. vm_compute in H. repeat (destruct H as [<-|H]; [reflexivity|]). destruct H.
Qed.

(* Any number of reads and writes may be added wherever a row is open. *)
Theorem C57_access_admitted : forall p a c z, access c -> (N.to_nat (cmd_rank c) < ms_ranks p)%nat -> nondecreasing 0 (map cmd_ts (a ++ c :: z)) -> row_ready p a c ->
  legal_history p (a ++ z) -> legal_history p (a ++ c :: z).
Proof. exact access_admitted. Qed.
Print Assumptions C57_access_admitted.
Example C57_access_admitted_case : Forall (fun s => let p := dp_core (ex_dspec s) in let a := firstn 2 (day_commands s) in let z := skipn 2 (day_commands s) in
  let c := cmd_at 25 WR 4 0 9 [] in
  access c /\ (N.to_nat (cmd_rank c) < ms_ranks p)%nat /\ nondecreasing 0 (map cmd_ts (a ++ c :: z)) /\ row_ready p a c /\ legal_history p (a ++ z)) five.
Proof.
  apply in_five. intros s. split; [right; reflexivity|]. split; [destruct s; vm_compute; repeat constructor|]. split; [apply ndb_ok; destruct s; vm_compute; reflexivity|].
  split; [|rewrite firstn_skipn; apply day_legal]. destruct s; eexists; eexists; (split; [vm_compute; reflexivity|repeat split]).
Qed.

(* Traces that differ only in how the commands to different ranks interleave. *)
Theorem C57_ranks_accepted : forall p cs cs', same_for_ranks p cs cs' -> legal_history p cs -> Forall (fun c => (N.to_nat (cmd_rank c) < ms_ranks p)%nat) cs' -> legal_history p cs'.
Proof. exact order_legal. Qed.
Print Assumptions C57_ranks_accepted.
Theorem C57_ranks_views : forall p cs cs', same_for_ranks p cs cs' -> forall t, DeviceSpec.well_formed p -> timely p cs t -> timely p cs' t -> legal_history p cs ->
  Forall (fun c => (N.to_nat (cmd_rank c) < ms_ranks p)%nat) cs' -> forall r, (r < ms_ranks p)%nat ->
  (exists v, rank_view p cs t r = Some v /\ rank_view p cs' t r = Some v) /\
  forall b, (b < ms_banks p)%nat -> (exists v, bank_view p cs t r b = Some v /\ bank_view p cs' t r b = Some v) /\
    forall k, exists n, bank_counter p cs t r b k = Some n /\ bank_counter p cs' t r b k = Some n.
Proof. exact order_views. Qed.
Print Assumptions C57_ranks_views.
Theorem C57_ranks_energy : forall p cs cs', same_for_ranks p cs cs' -> forall t, DeviceSpec.well_formed p -> timely p cs t -> timely p cs' t -> legal_history p cs ->
  Forall (fun c => (N.to_nat (cmd_rank c) < ms_ranks p)%nat) cs' -> forall e, EnergySpec.well_formed e -> same_memory p e ->
  exists s s' en en', run_core p cs (core_new p) = Ok s /\ run_core p cs' (core_new p) = Ok s' /\
    calc_energy e (fill_core (snd (window_stats p t s))) = Exactly en /\ calc_energy e (fill_core (snd (window_stats p t s'))) = Exactly en' /\ (en_total en == en_total en')%Q.
Proof. exact order_energy. Qed.
Print Assumptions C57_ranks_energy.
(* Two ranks activated in the same cycle, in either order, then powered down. *)
Example C57_ranks_case : let p := ExampleCores.ex_ddr4 in
  let cs := [at_ 5 ACT 0 1; at_ 5 ACT 1 2; at_ 30 RDA 0 1; at_ 40 PDEA 1 0] in let cs' := [at_ 5 ACT 1 2; at_ 5 ACT 0 1; at_ 30 RDA 0 1; at_ 40 PDEA 1 0] in
  same_for_ranks p cs cs' /\ DeviceSpec.well_formed p /\ timely p cs 100 /\ timely p cs' 100 /\ legal_history p cs.
Proof.
  split; [intros r H; vm_compute in H; destruct r as [|[|r]]; [reflexivity|reflexivity|exfalso; repeat apply le_S_n in H; inversion H]|].
  split; [split; [repeat constructor|discriminate]|]. split; [apply timely_by; vm_compute; reflexivity|]. split; [apply timely_by; vm_compute; reflexivity|show_legal].
Qed.
