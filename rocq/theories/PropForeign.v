(* C84: a core read from the stream of a core of another memory. *)
From Coq Require Import NArith List Bool Lia.
From Verif Require Import Base Command Bits CoreModel HistorySpec ExampleCores SerialModel SerialCore ByteModel ByteSpec ByteLayout ByteTop CutModel CutSpec ForeignProofs
  InterfaceModel DramModel DramExamples SerialExamples ExtensionModel ExtensionSpec ExtensionExamples CutDevSpec ForeignDev.
Import ListNotations.
Local Open Scope N_scope.

(* Ranks and banks in the same numbers: whatever the standards and the timings, the
   reader becomes the writer, and goes on from there with its own timings. *)
Theorem C84_same_size : forall p p' os0 t a0 os s a rest, ms_ranks p = ms_ranks p' -> ms_banks p = ms_banks p' ->
  run_ops p os0 (core_new p) = Ok (t, a0) -> is_serializable t = true -> run_ops p' os (core_new p') = Ok (s, a) -> is_serializable s = true ->
  r_core t (w_core s ++ rest) = Got s rest.
Proof. exact other_standard. Qed.
Print Assumptions C84_same_size.
Example C84_same_size_case : ms_ranks ex_ddr5 = ms_ranks ex_lpddr4 /\ ms_banks ex_ddr5 = ms_banks ex_lpddr4 /\ exists s a,
  run_ops ex_lpddr4 [Cmd (at_ 0 ACT 0 1); Cmd (at_ 50 PREA 0 0); Query 100] (core_new ex_lpddr4) = Ok (s, a) /\ is_serializable s = true /\ s <> core_new ex_lpddr4.
Proof. split; [reflexivity|]. split; [reflexivity|]. do 2 eexists. split; [vm_compute; reflexivity|]. split; [reflexivity|]. vm_compute. discriminate. Qed.

(* The reader has fewer ranks: it gets the first ranks, and what was written of the
   others stays in the stream. *)
Theorem C84_fewer_ranks : forall p p' os0 t a0 os s a rest, (ms_ranks p <= ms_ranks p')%nat -> ms_banks p = ms_banks p' ->
  run_ops p os0 (core_new p) = Ok (t, a0) -> run_ops p' os (core_new p') = Ok (s, a) ->
  r_core t (w_core s ++ rest) = Got (mkCore (firstn (ms_ranks p) (co_ranks s)) (co_queue t) (co_last s)) (flat_map w_rank (skipn (ms_ranks p) (co_ranks s)) ++ rest).
Proof. exact fewer_ranks. Qed.
Print Assumptions C84_fewer_ranks.
Example C84_fewer_ranks_case : (ms_ranks ex_lpddr4 < ms_ranks ex_ddr4)%nat /\ ms_banks ex_lpddr4 = ms_banks ex_ddr4 /\ exists s a,
  run_ops ex_ddr4 [Cmd (at_ 0 ACT 1 1); Query 100] (core_new ex_ddr4) = Ok (s, a) /\ length (flat_map w_rank (skipn 1 (co_ranks s))) = 120%nat.
Proof. split; [cbn; lia|]. split; [reflexivity|]. do 2 eexists. split; [vm_compute; reflexivity|]. vm_compute. reflexivity. Qed.

(* The same of the bytes, whatever the layout. *)
Theorem C84_fewer_ranks_bytes : forall y p p' os0 t a0 os s a bytes, (ms_ranks p <= ms_ranks p')%nat -> ms_banks p = ms_banks p' ->
  run_ops p os0 (core_new p) = Ok (t, a0) -> run_ops p' os (core_new p') = Ok (s, a) -> lawful y -> represents y (w_core s) bytes ->
  exists used left, bytes = used ++ left /\ represents y (flat_map w_rank (skipn (ms_ranks p) (co_ranks s))) left /\
    forall more, from_bytes y (p_core t) (used ++ more) = Taken (mkCore (firstn (ms_ranks p) (co_ranks s)) (co_queue t) (co_last s)) more.
Proof. exact fewer_bytes. Qed.
Print Assumptions C84_fewer_ranks_bytes.
Example C84_fewer_ranks_bytes_case : lawful lp64 /\ exists s a, run_ops ex_ddr4 [Cmd (at_ 0 ACT 1 1)] (core_new ex_ddr4) = Ok (s, a) /\
  represents lp64 (w_core s) (stream64 (w_core s)).
Proof.
  split; [exact lp64_lawful|]. do 2 eexists. split; [vm_compute; reflexivity|].
  eapply (core_written ex_ddr4 [Cmd (at_ 0 ACT 1 1)]); [repeat constructor|vm_compute; reflexivity].
Qed.

(* The reader has a single rank of fewer banks: it gets the state and the counters of the
   writer's first rank, those about all its banks included, and the first banks. *)
Theorem C84_fewer_banks : forall p p' os0 t a0 os s a rest, ms_ranks p = 1%nat -> (0 < ms_ranks p')%nat -> (ms_banks p <= ms_banks p')%nat ->
  run_ops p os0 (core_new p) = Ok (t, a0) -> run_ops p' os (core_new p') = Ok (s, a) ->
  exists r x left, r_core t (w_core s ++ rest) = Got (mkCore [x] (co_queue t) (co_last s)) left /\ nth_error (co_ranks s) 0 = Some r /\
    firstn (ms_banks p) (rk_banks r) = rk_banks x /\
    (rk_memState x, rk_endRefresh x, rk_n_sref x, rk_n_dsm x) = (rk_memState r, rk_endRefresh r, rk_n_sref r, rk_n_dsm r) /\
    [rk_pre x; rk_act x; rk_ref x; rk_sref x; rk_pda x; rk_pdp x; rk_dsm x] = [rk_pre r; rk_act r; rk_ref r; rk_sref r; rk_pda r; rk_pdp r; rk_dsm r] /\
    left = flat_map w_bank (skipn (ms_banks p) (rk_banks r)) ++ flat_map w_rank (skipn 1 (co_ranks s)) ++ rest.
Proof. exact fewer_banks. Qed.
Print Assumptions C84_fewer_banks.
Example C84_fewer_banks_case : ms_ranks ex_lpddr4 = 1%nat /\ (0 < ms_ranks ex_lpddr5)%nat /\ (ms_banks ex_lpddr4 < ms_banks ex_lpddr5)%nat /\ exists s a,
  run_ops ex_lpddr5 [Cmd (at_ 0 ACT 0 9); Query 100] (core_new ex_lpddr5) = Ok (s, a) /\ s <> core_new ex_lpddr5.
Proof. split; [reflexivity|]. split; [cbn; lia|]. split; [cbn; lia|]. do 2 eexists. split; [vm_compute; reflexivity|]. vm_compute. discriminate. Qed.

(* The reader has more ranks: the first are the writer's, and its others keep their
   numbers but forget which intervals were running.  No error is raised. *)
Theorem C84_more_ranks : forall p p' os0 t a0 os s a, (ms_ranks p' <= ms_ranks p)%nat -> ms_banks p = ms_banks p' ->
  run_ops p os0 (core_new p) = Ok (t, a0) -> run_ops p' os (core_new p') = Ok (s, a) ->
  exists zs, l_core t (w_core s) = Got (mkCore (co_ranks s ++ zs) (co_queue t) (co_last s)) [] /\
    Forall2 (fun x z => members (rank_fields z) = map unread (members (rank_fields x))) (skipn (ms_ranks p') (co_ranks t)) zs.
Proof. exact more_ranks. Qed.
Print Assumptions C84_more_ranks.
Example C84_more_ranks_case : (ms_ranks ex_lpddr4 < ms_ranks ex_ddr4)%nat /\ ms_banks ex_ddr4 = ms_banks ex_lpddr4 /\ exists t a,
  run_ops ex_ddr4 [Cmd (at_ 0 ACT 1 1)] (core_new ex_ddr4) = Ok (t, a) /\
  map (fun x => map unread (members (rank_fields x))) (skipn 1 (co_ranks t)) <> map (fun x => members (rank_fields x)) (skipn 1 (co_ranks t)).
Proof. split; [cbn; lia|]. split; [reflexivity|]. do 2 eexists. split; [vm_compute; reflexivity|]. vm_compute. discriminate. Qed.

(* A stream of another standard is noticed: no. *)
Theorem C84_kind_noticed_refuted : exists p p' os s a y, ms_std p <> ms_std p' /\ run_ops p' os (core_new p') = Ok (s, a) /\ is_serializable s = true /\ s <> core_new p' /\
  r_core (core_new p) (w_core s) = Got y [] /\ y = s.
Proof. exact kind_unnoticed. Qed.
Print Assumptions C84_kind_noticed_refuted.

(* A core that has been read holds all activations that were written: no. *)
Theorem C84_all_kept_refuted : exists p p' os s a y r, ms_banks p = ms_banks p' /\ run_ops p' os (core_new p') = Ok (s, a) /\ is_serializable s = true /\
  r_core (core_new p) (w_core s) = Got y r /\ r <> [] /\
  map (fun b => cs_act (bk_counter b)) (flat_map rk_banks (co_ranks s)) = [0; 0; 0; 0; 0; 1; 0; 0] /\ map (fun b => cs_act (bk_counter b)) (flat_map rk_banks (co_ranks y)) = [0; 0; 0; 0].
Proof. exact half_lost. Qed.
Print Assumptions C84_all_kept_refuted.

(* A whole device of fewer ranks: after the extensions and the core, the interface is
   read from the bytes the writer's other ranks left. *)
Theorem C84_device : forall y p p' d0 d0' ys o xs n be bc, lawful y ->
  device_new p = Value d0 -> device_new p' = Value d0' -> duses_run p ys d0 = Returned o -> duses_run p' xs d0' = Returned n ->
  fi_std (dp_if p) = fi_std (dp_if p') -> (ms_ranks (dp_core p) <= ms_ranks (dp_core p'))%nat -> ms_banks (dp_core p) = ms_banks (dp_core p') ->
  represents y (ext_items n) be -> represents y (w_core (dr_core (dv_dram n))) bc ->
  exists used left, bc = used ++ left /\ represents y (flat_map w_rank (skipn (ms_ranks (dp_core p)) (co_ranks (dr_core (dv_dram n))))) left /\
    forall bi, from_bytes y (p_device o) (be ++ bc ++ bi) =
      match from_bytes y (p_iface (dr_if (dv_dram o))) (left ++ bi) with
      | Taken i r => Taken (Value (mkDevice (dv_ext n) (mkDram (mkCore (firstn (ms_ranks (dp_core p)) (co_ranks (dr_core (dv_dram n)))) (co_queue (dr_core (dv_dram o))) (co_last (dr_core (dv_dram n)))) i))) r
      | Short => Short
      | Bad => Bad
      end.
Proof. exact fewer_device. Qed.
Print Assumptions C84_device.
Example C84_device_case : forallb (fun s =>
  match device_new (ex_dspec s), device_after (two_ranks s) (device_day s) with
  | Value _, Some (_, n) => forallb shown (ext_items n) && forallb shown (w_core (dr_core (dv_dram n))) && Nat.ltb 1500 (length (stream64 (flat_map w_rank (skipn 1 (co_ranks (dr_core (dv_dram n)))))))
  | _, _ => false
  end) [DDR4; DDR5; LPDDR4; LPDDR5; LPDDR6] = true.
Proof. vm_compute. reflexivity. Qed.

(* A device that was read has the bus counts of the writer, or the read fails: no.  In
   every standard such a read succeeds, leaves bytes unread, and the command bus of the result
   is switched off with nothing counted. *)
Theorem C84_device_noticed_refuted : forall s, exists o n0 n w bytes d r,
  device_new (ex_dspec s) = Value o /\ device_new (two_ranks s) = Value n0 /\ duses_run (two_ranks s) (device_day s) n0 = Returned n /\
  w_device (as_is (dr_if (dv_dram n))) n = Value w /\ represents lp64 w bytes /\ from_bytes lp64 (p_device o) bytes = Taken (Value d) r /\ r <> [] /\
  BusModel.b_enabled (if_cmd (dr_if (dv_dram n))) = true /\ 100 < ones (BusModel.b_stats (if_cmd (dr_if (dv_dram n)))) + zeroes (BusModel.b_stats (if_cmd (dr_if (dv_dram n)))) /\
  BusModel.b_enabled (if_cmd (dr_if (dv_dram d))) = false /\ ones (BusModel.b_stats (if_cmd (dr_if (dv_dram d)))) + zeroes (BusModel.b_stats (if_cmd (dr_if (dv_dram d)))) = 0.
Proof. exact foreign_unnoticed. Qed.
Print Assumptions C84_device_noticed_refuted.
