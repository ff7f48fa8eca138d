(* A whole device read from the stream of a device of another memory. *)
From Coq Require Import NArith Arith List Bool Lia.
From Verif Require Import Base Command Bits CoreModel CoreBasics HistorySpec SerialModel SerialProofs SerialCore InterfaceModel ByteModel ByteSpec ByteProofs DramModel DramSpec DramProofs ExtensionModel ExtensionSpec
  ExtensionDevice InterfaceCa SerialIface CutDevSpec ForeignProofs.
Import ListNotations.
Local Open Scope N_scope.

Lemma device_parts p d0 xs n : device_new p = Value d0 -> duses_run p xs d0 = Returned n ->
  (exists e m, dv_ext n = ext_of (fi_std (dp_if p)) e m) /\ exists os a, run_ops (dp_core p) os (core_new (dp_core p)) = Ok (dr_core (dv_dram n), a).
Proof.
  intros N H. destruct (device_new_shape _ _ N) as (Sh & Dn & X0 & _).
  destruct (duses_seen _ _ _ _ Sh H) as [[S1 (e & m & X1)] U]. destruct (uses_split _ _ _ _ U) as [[a Cr] Ir].
  unfold dram_new in Dn. apply bind_inv in Dn as (i0 & I0 & Dn). apply value_eq in Dn.
  assert (dr_core (dv_dram d0) = core_new (dp_core p)) as C0 by now rewrite <- Dn. rewrite C0 in Cr. split; [eauto|]. eauto.
Qed.
Lemma bytes_bind {A B} y (p : prog A) (k : A -> prog B) : forall s, from_bytes y (p_bind p k) s =
  match from_bytes y p s with Taken x r => from_bytes y (k x) r | Short => Short | Bad => Bad end.
Proof.
  induction p as [x|t f IH]; intros s; cbn [p_bind from_bytes]; [reflexivity|]. destruct (take y t s) as [v r| |]; [apply IH|reflexivity..].
Qed.
Theorem fewer_device y p p' d0 d0' ys o xs n be bc : lawful y ->
  device_new p = Value d0 -> device_new p' = Value d0' -> duses_run p ys d0 = Returned o -> duses_run p' xs d0' = Returned n ->
  fi_std (dp_if p) = fi_std (dp_if p') -> (ms_ranks (dp_core p) <= ms_ranks (dp_core p'))%nat -> ms_banks (dp_core p) = ms_banks (dp_core p') ->
  represents y (ext_items n) be -> represents y (w_core (dr_core (dv_dram n))) bc ->
  exists used left, bc = used ++ left /\ represents y (flat_map w_rank (skipn (ms_ranks (dp_core p)) (co_ranks (dr_core (dv_dram n))))) left /\
    forall bi, from_bytes y (p_device o) (be ++ bc ++ bi) =
      match from_bytes y (p_iface (dr_if (dv_dram o))) (left ++ bi) with
      | Taken i r => Taken (Value (mkDevice (dv_ext n) (mkDram (mkCore (firstn (ms_ranks (dp_core p)) (co_ranks (dr_core (dv_dram n)))) (co_queue (dr_core (dv_dram o))) (co_last (dr_core (dv_dram n)))) i))) r
      | Short => Short
      | Bad => Bad
      end.
Proof.
  intros Y N N' O H D R B Be Bc. destruct (device_parts _ _ _ _ N O) as [(e & m & X) (os0 & a0 & C0)].
  destruct (device_parts _ _ _ _ N' H) as [(e' & m' & X') (os & a & C)].
  destruct (fewer_bytes y _ _ _ _ _ _ _ _ _ R B C0 C Y Bc) as (used & left & E & L & T). exists used, left. split; [exact E|]. split; [exact L|].
  intros bi. assert (from_items (p_exts (dv_ext o) (em_ser (dv_ext o))) (ext_items n) = Got (Value (dv_ext n)) []) as G
    by (unfold ext_items; rewrite X, X', D; destruct (fi_std (dp_if p')), m, m'; reflexivity).
  destruct (all_got y Y _ _ _ _ G Be) as [G' _]. unfold p_device. rewrite bytes_bind, G', bytes_bind, E, <- app_assoc, T, bytes_bind.
  destruct (from_bytes y (p_iface (dr_if (dv_dram o))) (left ++ bi)); reflexivity.
Qed.

(* ---- what comes of it ---- *)
From Coq Require Import QArith.
From Verif Require Import ByteLayout ExtensionExamples DramExamples SerialExamples.
Local Open Scope N_scope.
(* The memory of the examples with two ranks. *)
Definition two_ranks (s : standard) : dspec :=
  mkDspec (mkMemspec s 2 16 4 4 20 10 8 8 100 60 60 60 8 12 8 false) (dp_if (ex_dspec s)) (dp_sim (ex_dspec s)) (dp_ce (ex_dspec s)) (dp_ie (ex_dspec s)).
(* A new device of one rank, a device of two that was used for a while, the values it
   writes, and what the first reads from their bytes. *)
Definition foreign_read (s : standard) : option (device * device * device * list item * device * list N) :=
  match device_new (ex_dspec s), device_after (two_ranks s) (device_day s) with
  | Value o, Some (n0, n) =>
      match w_device (as_is (dr_if (dv_dram n))) n with
      | Value w => match from_bytes lp64 (p_device o) (stream64 w) with Taken (Value d) r => Some (o, n0, n, w, d, r) | _ => None end
      | Fails _ => None
      end
  | _, _ => None
  end.
Definition foreign_ok (s : standard) : bool :=
  match foreign_read s with
  | Some (o, n0, n, w, d, r) =>
      forallb shown w && Nat.ltb 2000 (length r) && BusModel.b_enabled (if_cmd (dr_if (dv_dram n))) && (100 <? ones (BusModel.b_stats (if_cmd (dr_if (dv_dram n)))) + zeroes (BusModel.b_stats (if_cmd (dr_if (dv_dram n))))) &&
      negb (BusModel.b_enabled (if_cmd (dr_if (dv_dram d)))) && (ones (BusModel.b_stats (if_cmd (dr_if (dv_dram d)))) + zeroes (BusModel.b_stats (if_cmd (dr_if (dv_dram d)))) =? 0)
  | None => false
  end.
Theorem foreign_unnoticed : forall s, exists o n0 n w bytes d r,
  device_new (ex_dspec s) = Value o /\ device_new (two_ranks s) = Value n0 /\ duses_run (two_ranks s) (device_day s) n0 = Returned n /\
  w_device (as_is (dr_if (dv_dram n))) n = Value w /\ represents lp64 w bytes /\ from_bytes lp64 (p_device o) bytes = Taken (Value d) r /\ r <> [] /\
  BusModel.b_enabled (if_cmd (dr_if (dv_dram n))) = true /\ 100 < ones (BusModel.b_stats (if_cmd (dr_if (dv_dram n)))) + zeroes (BusModel.b_stats (if_cmd (dr_if (dv_dram n)))) /\
  BusModel.b_enabled (if_cmd (dr_if (dv_dram d))) = false /\ ones (BusModel.b_stats (if_cmd (dr_if (dv_dram d)))) + zeroes (BusModel.b_stats (if_cmd (dr_if (dv_dram d)))) = 0.
Proof.
  intros s. assert (foreign_ok s = true) as F by (destruct s; vm_compute; reflexivity). unfold foreign_ok, foreign_read in F.
  destruct (device_new (ex_dspec s)) as [o|]; [|discriminate]. destruct (device_after (two_ranks s) (device_day s)) as [[n0 n]|] eqn:A; [|discriminate].
  apply device_after_runs in A as [A B]. destruct (w_device (as_is (dr_if (dv_dram n))) n) as [w|] eqn:W; [|discriminate].
  destruct (from_bytes lp64 (p_device o) (stream64 w)) as [[d|] r| |] eqn:G; try discriminate.
  repeat (apply andb_true_iff in F as [F ?]). exists o, n0, n, w, (stream64 w), d, r.
  split; [reflexivity|]. split; [exact A|]. split; [exact B|]. split; [exact W|]. split; [now apply shown_represents|]. split; [exact G|].
  split; [intros ->; discriminate|]. split; [assumption|]. split; [now apply N.ltb_lt|]. split; [now apply negb_true_iff|now apply N.eqb_eq].
Qed.
