(* C29: a core written to a stream and read back. *)
From Coq Require Import NArith List Bool.
From Verif Require Import Base Command CoreModel HistorySpec ExampleCores SerialModel SerialCore.
Import ListNotations.
Local Open Scope N_scope.

(* The core s has seen any commands and queries, the core t of the same
   configuration any others; both are serializable.  What s writes is read by t to
   the last item, and afterwards t answers every further sequence of commands and
   queries as s does. *)
Theorem C29_checkpoint_invisible : forall p os0 t a0 os s a rest,
  run_ops p os0 (core_new p) = Ok (t, a0) -> is_serializable t = true ->
  run_ops p os (core_new p) = Ok (s, a) -> is_serializable s = true ->
  exists t', r_core t (w_core s ++ rest) = Got t' rest /\
             get_last_command_time t' = get_last_command_time s /\ forall later, run_ops p later t' = run_ops p later s.
Proof. exact checkpoint_invisible. Qed.
Print Assumptions C29_checkpoint_invisible.
Example C29_checkpoint_invisible_case :
  Forall (fun p => match run_ops p (ser_ops ++ [Query 100]) (core_new p) with
                   | Ok (s, _) => is_serializable s = true /\ co_last s = 38 /\ (match r_core (core_new p) (w_core s) with Got t' r => r = [] /\ t' = s /\ t' <> core_new p | _ => False end)
                   | _ => False
                   end) [ex_ddr4; ex_ddr5; ex_lpddr4; ex_lpddr5; ex_lpddr6].
Proof. repeat apply Forall_cons; try apply Forall_nil; vm_compute; repeat split; discriminate. Qed.

(* A query at or after the last pending implicit command makes a core serializable. *)
Theorem C29_query_drains : forall p t s, (forall e, In e (co_queue s) -> fst e <= t) -> is_serializable (fst (window_stats p t s)) = true.
Proof. exact drained_serializable. Qed.
Print Assumptions C29_query_drains.
Example C29_query_drains_case :
  match run_ops ex_ddr4 ser_ops (core_new ex_ddr4) with
  | Ok (s, _) => is_serializable s = false /\ map fst (co_queue s) <> [] /\ Forall (fun t => t <= 100) (map fst (co_queue s))
  | _ => False
  end.
Proof. vm_compute. repeat constructor; discriminate. Qed.

(* Without the condition on the writer: the pending auto precharge is not written,
   and the restored core keeps the bank open. *)
Theorem C29_pending_refuted :
  exists p os s x t' r a b, run_ops p os (core_new p) = Ok (s, x) /\ is_serializable s = false /\
    r_core (core_new p) (w_core s) = Got t' r /\
    (exists y, run_ops p [Query 100] s = Ok (y, a)) /\ (exists y, run_ops p [Query 100] t' = Ok (y, b)) /\
    nth_error (open_cycles a) 0 = Some 38 /\ nth_error (open_cycles b) 0 = Some 100.
Proof. exact pending_lost. Qed.
Print Assumptions C29_pending_refuted.

(* Without the condition on the reader: its own pending auto precharge survives the
   reading and closes a bank of the restored state. *)
Theorem C29_busy_reader_refuted :
  exists p os0 t x0 t' r a b, run_ops p os0 (core_new p) = Ok (t, x0) /\ is_serializable t = false /\
    r_core t (w_core (core_new p)) = Got t' r /\
    (exists y, run_ops p [Cmd ser_act; Query 100] (core_new p) = Ok (y, a)) /\ (exists y, run_ops p [Cmd ser_act; Query 100] t' = Ok (y, b)) /\
    nth_error (open_cycles a) 0 = Some 100 /\ nth_error (open_cycles b) 0 = Some 38.
Proof. exact busy_target. Qed.
Print Assumptions C29_busy_reader_refuted.
