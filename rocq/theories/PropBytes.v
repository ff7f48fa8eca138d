(* C70: the bytes of a stream. *)
From Coq Require Import NArith List Bool.
From Verif Require Import Base Command CoreModel HistorySpec ExampleCores Bits BusModel StatsModel PatternModel InterfaceModel InterfaceSpec DramModel DramSpec
  SerialModel SerialSpec ExtensionModel ExtensionSpec ByteModel ByteSpec RangeSpec ByteLayout ByteTop ByteExamples.
Import ListNotations.
Local Open Scope N_scope.

(* Whatever the layout of the types: the bytes of a serializable core s are read by a
   serializable core t of the same configuration to the last one and no further, and
   t then answers as s does; if only the first n of them are there, a read runs out of
   bytes, which the caller can see at the stream. *)
Theorem C70_core : forall a p os0 t a0 os s x bytes, lawful a ->
  run_ops p os0 (core_new p) = Ok (t, a0) -> is_serializable t = true ->
  run_ops p os (core_new p) = Ok (s, x) -> is_serializable s = true ->
  represents a (w_core s) bytes ->
  (exists t', (forall more, from_bytes a (p_core t) (bytes ++ more) = Taken t' more) /\
     get_last_command_time t' = get_last_command_time s /\ forall later, run_ops p later t' = run_ops p later s) /\
  forall n, (n < length bytes)%nat -> from_bytes a (p_core t) (firstn n bytes) = Short.
Proof. exact core_bytes. Qed.
Print Assumptions C70_core.
Example C70_core_case : lawful lp64 /\ forallb core_case [ex_ddr4; ex_ddr5; ex_lpddr4; ex_lpddr5; ex_lpddr6] = true.
Proof. split; [exact lp64_lawful|vm_compute; reflexivity]. Qed.

(* There always are such bytes: after commands with 64-bit times no member of a core
   exceeds its type. *)
Theorem C70_core_written : forall p os s x, Forall op_fits os -> run_ops p os (core_new p) = Ok (s, x) -> represents lp64 (w_core s) (stream64 (w_core s)).
Proof. exact core_written. Qed.
Print Assumptions C70_core_written.
Example C70_core_written_case : Forall op_fits (SerialCore.ser_ops ++ [Query 100]) /\ forallb core_case [ex_ddr4; ex_ddr5; ex_lpddr4; ex_lpddr5; ex_lpddr6] = true.
Proof. split; [repeat constructor|vm_compute; reflexivity]. Qed.

(* The same of an interface after any calls, read into a newly made one; with a byte
   above one among the last beats of a DDR4 inverter, reading is undefined. *)
Theorem C70_interface : forall a p sim i0 xs i order bytes, lawful a ->
  iface_new p sim = Value i0 -> calls_run xs i0 = Value i -> traversal order (settings_of (if_pat i)) ->
  represents a (w_iface order i) bytes ->
  (Forall (fun b => b <= 1) (kept_beats i) /\
   (exists j, (forall more, from_bytes a (p_iface i0) (bytes ++ more) = Taken j more) /\ forall later, watch later j = watch later (forgetful i0 i)) /\
   forall n, (n < length bytes)%nat -> from_bytes a (p_iface i0) (firstn n bytes) = Short) \/
  (Exists (fun b => 1 < b) (kept_beats i) /\ forall more, from_bytes a (p_iface i0) (bytes ++ more) = Bad).
Proof. exact iface_bytes. Qed.
Print Assumptions C70_interface.
Example C70_interface_case : forallb iface_case [DDR4; DDR5; LPDDR4; LPDDR5; LPDDR6] = true.
Proof. vm_compute. reflexivity. Qed.

(* The same of a whole object with its extensions. *)
Theorem C70_object : forall a p d0 xs d order s bytes, lawful a ->
  device_new p = Value d0 -> duses_run p xs d0 = Returned d ->
  dram_serializable (dv_dram d) = true -> traversal order (settings_of (if_pat (dr_if (dv_dram d)))) ->
  w_device order d = Value s -> represents a s bytes ->
  (Forall (fun b => b <= 1) (kept_beats (dr_if (dv_dram d))) /\
   (exists d', (forall more, from_bytes a (p_device d0) (bytes ++ more) = Taken (Value d') more) /\ forall later, dwatch p later d' = dwatch p later (forgetful_device d0 d)) /\
   forall n, (n < length bytes)%nat -> from_bytes a (p_device d0) (firstn n bytes) = Short) \/
  (Exists (fun b => 1 < b) (kept_beats (dr_if (dv_dram d))) /\ forall more, from_bytes a (p_device d0) (bytes ++ more) = Bad).
Proof. exact device_bytes. Qed.
Print Assumptions C70_object.
Example C70_object_case : forallb device_bytes_case [DDR4; DDR5; LPDDR4; LPDDR5; LPDDR6] = true.
Proof. vm_compute. reflexivity. Qed.
