(* What is read from the bytes of a core, an interface and a whole object. *)
From Coq Require Import NArith List Bool Arith Lia.
From Verif Require Import Base Command CoreModel HistorySpec Bits BusModel StatsModel PatternModel DbiModel DbiPinModel InterfaceModel InterfaceSpec DramModel DramSpec
  SerialModel SerialCore SerialIface ExtensionModel ExtensionSpec ExtensionDevice ByteModel ByteSpec ByteProofs RangeSpec RangeProofs ByteLayout.
From Verif Require SerialSpec.
Import ListNotations.
Local Open Scope N_scope.

Lemma core_bytes a p os0 t a0 os s x bytes : lawful a ->
  run_ops p os0 (core_new p) = Ok (t, a0) -> is_serializable t = true ->
  run_ops p os (core_new p) = Ok (s, x) -> is_serializable s = true ->
  represents a (w_core s) bytes ->
  (exists t', (forall more, from_bytes a (p_core t) (bytes ++ more) = Taken t' more) /\
     get_last_command_time t' = get_last_command_time s /\ forall later, run_ops p later t' = run_ops p later s) /\
  forall n, (n < length bytes)%nat -> from_bytes a (p_core t) (firstn n bytes) = Short.
Proof.
  intros G R0 S0 R S B. destruct (checkpoint_invisible p os0 t a0 os s x [] R0 S0 R S) as (t' & E & L & W).
  rewrite app_nil_r in E. rewrite <- (does_core t) in E. destruct (all_got a G _ _ _ _ E B) as [T Sh].
  split; [exists t'; repeat split; assumption|exact Sh].
Qed.
Lemma core_written p os s x : Forall op_fits os -> run_ops p os (core_new p) = Ok (s, x) -> represents lp64 (w_core s) (stream64 (w_core s)).
Proof. intros F R. apply seen_represents, seen_core. eapply range; eassumption. Qed.

Lemma iface_bytes a p sim i0 xs i order bytes : lawful a ->
  iface_new p sim = Value i0 -> calls_run xs i0 = Value i -> SerialSpec.traversal order (SerialSpec.settings_of (if_pat i)) ->
  represents a (w_iface order i) bytes ->
  (Forall (fun b => b <= 1) (SerialSpec.kept_beats i) /\
   (exists j, (forall more, from_bytes a (p_iface i0) (bytes ++ more) = Taken j more) /\ forall later, SerialSpec.watch later j = SerialSpec.watch later (SerialSpec.forgetful i0 i)) /\
   forall n, (n < length bytes)%nat -> from_bytes a (p_iface i0) (firstn n bytes) = Short) \/
  (Exists (fun b => 1 < b) (SerialSpec.kept_beats i) /\ forall more, from_bytes a (p_iface i0) (bytes ++ more) = Bad).
Proof.
  intros G N R T B. destruct (checkpoint_any p sim i0 xs i order [] N R T) as [(K & j & E & W)|(K & E)]; rewrite app_nil_r, <- (does_iface i0) in E.
  - left. split; [exact K|]. destruct (all_got a G _ _ _ _ E B) as [T' Sh]. split; [exists j; split; assumption|exact Sh].
  - right. split; [exact K|]. exact (all_bad a G _ _ _ E B).
Qed.

Lemma device_bytes a p d0 xs d order s bytes : lawful a ->
  device_new p = Value d0 -> duses_run p xs d0 = Returned d ->
  dram_serializable (dv_dram d) = true -> SerialSpec.traversal order (SerialSpec.settings_of (if_pat (dr_if (dv_dram d)))) ->
  w_device order d = Value s -> represents a s bytes ->
  (Forall (fun b => b <= 1) (SerialSpec.kept_beats (dr_if (dv_dram d))) /\
   (exists d', (forall more, from_bytes a (p_device d0) (bytes ++ more) = Taken (Value d') more) /\ forall later, dwatch p later d' = dwatch p later (forgetful_device d0 d)) /\
   forall n, (n < length bytes)%nat -> from_bytes a (p_device d0) (firstn n bytes) = Short) \/
  (Exists (fun b => 1 < b) (SerialSpec.kept_beats (dr_if (dv_dram d))) /\ forall more, from_bytes a (p_device d0) (bytes ++ more) = Bad).
Proof.
  intros G N R Z T W B. destruct (device_any p d0 xs d order N R Z T) as (s' & W' & H). assert (s' = s) as -> by congruence. clear W'.
  destruct H as [(K & d' & E & L)|(K & E)]; rewrite does_device in E.
  - left. split; [exact K|]. assert (from_items (p_device d0) s = Got (Value d') []) as E'.
    { destruct (from_items (p_device d0) s) as [[e|f] r| |]; try discriminate. congruence. }
    destruct (all_got a G _ _ _ _ E' B) as [T' Sh]. split; [exists d'; split; assumption|exact Sh].
  - right. split; [exact K|]. assert (from_items (p_device d0) s = BadBool) as E'.
    { destruct (from_items (p_device d0) s) as [[e|f] r| |]; try discriminate. reflexivity. }
    exact (all_bad a G _ _ _ E' B).
Qed.
