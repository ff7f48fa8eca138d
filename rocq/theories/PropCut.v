(* C79: a core read from a stream that breaks off. *)
From Coq Require Import NArith List Bool.
From Verif Require Import Base Command CoreModel HistorySpec ExampleCores SerialModel SerialProofs SerialCore CutModel CutSpec CutTop CutProofs.
Import ListNotations.
Local Open Scope N_scope.

(* A core is written as its members one after the other, each rank with the end of
   its refresh twice. *)
Theorem C79_stream : forall s, w_core s = flat_map emit (core_fields s).
Proof. exact stream_of_core. Qed.
Print Assumptions C79_stream.
Example C79_stream_case : length (members (core_fields (core_new ex_ddr4))) = 235%nat /\ length (w_core (core_new ex_ddr4)) = 237%nat.
Proof. vm_compute. split; reflexivity. Qed.

(* Wherever the stream breaks off, the read ends without an exception and with
   nothing left in the stream, and it ends in one certain core: the members before
   the break are those of the writer, those after it are those of the reader with
   every optional reset, and a break between the flag of an optional and its value
   leaves that optional as it was. *)
Theorem C79_cut : forall o n p q, same_shape o n -> w_core n = p ++ q ->
  exists y m, l_core o p = Got y [] /\ left_behind (core_fields n) (core_fields o) p m /\
              forall y', same_shape o y' /\ co_queue y' = co_queue o /\ has_members y' m <-> y' = y.
Proof. exact cut_exactly. Qed.
Print Assumptions C79_cut.
Example C79_cut_case :
  match run_ops ex_ddr4 [Cmd ser_act] (core_new ex_ddr4) with
  | Ok (s, _) =>
      w_core s = firstn 29 (w_core s) ++ skipn 29 (w_core s) /\ length (skipn 29 (w_core s)) = 210%nat /\
      match l_core (core_new ex_ddr4) (firstn 29 (w_core s)) with
      | Got y r => r = [] /\ y <> s /\ y <> core_new ex_ddr4 /\
                   members (core_fields y) = members (firstn 28 (core_fields s)) ++ map unread (members (skipn 28 (core_fields (core_new ex_ddr4))))
      | _ => False
      end
  | _ => False
  end.
Proof. vm_compute. repeat split; discriminate. Qed.

(* A read that the model of whole streams allows is the same read. *)
Theorem C79_whole : forall o s y r, r_core o s = Got y r -> l_core o s = Got y r.
Proof. exact whole_stream. Qed.
Print Assumptions C79_whole.
Example C79_whole_case :
  match run_ops ex_ddr4 [Cmd ser_act] (core_new ex_ddr4) with
  | Ok (s, _) => r_core (core_new ex_ddr4) (w_core s ++ [I_u8 7]) = Got s [I_u8 7] /\ s <> core_new ex_ddr4
  | _ => False
  end.
Proof. vm_compute. split; [ reflexivity | discriminate ]. Qed.

(* A stream with nothing in it resets every optional and leaves the rest. *)
Theorem C79_empty : forall o, exists y, l_core o [] = Got y [] /\ co_queue y = co_queue o /\
  members (core_fields y) = map unread (members (core_fields o)).
Proof. exact empty_stream. Qed.
Print Assumptions C79_empty.
Example C79_empty_case :
  match run_ops ex_ddr4 [Cmd ser_act] (core_new ex_ddr4) with
  | Ok (s, _) => map unread (members (core_fields s)) <> members (core_fields s)
  | _ => False
  end.
Proof. vm_compute. discriminate. Qed.

(* The literal claims are false: a read that breaks off can leave a bank that is
   active and was never opened, of which a query at cycle 100 finds no active cycle
   where the writer has 100; ... *)
Theorem C79_active_unopened_refuted : exists p os s a k y b, run_ops p os (core_new p) = Ok (s, a) /\ is_serializable s = true /\
  l_core (core_new p) (firstn k (w_core s)) = Got y [] /\ In b (flat_map rk_banks (co_ranks y)) /\ bk_active b = true /\ iv_start (bk_act b) = None /\
  (exists s' x, run_ops p [Query 100] s = Ok (s', x) /\ nth_error (open_cycles x) 0 = Some 100) /\
  (exists y' x, run_ops p [Query 100] y = Ok (y', x) /\ nth_error (open_cycles x) 0 = Some 0).
Proof. exact active_unopened. Qed.
Print Assumptions C79_active_unopened_refuted.

(* ... and a read from a stream with nothing in it changes what the reader answers. *)
Theorem C79_empty_keeps_refuted : exists p os t a y, run_ops p os (core_new p) = Ok (t, a) /\ is_serializable t = true /\ l_core t [] = Got y [] /\
  (exists t' x, run_ops p [Query 100] t = Ok (t', x) /\ nth_error (open_cycles x) 0 = Some 100) /\
  (exists y' x, run_ops p [Query 100] y = Ok (y', x) /\ nth_error (open_cycles x) 0 = Some 0).
Proof. exact empty_changes. Qed.
Print Assumptions C79_empty_keeps_refuted.
