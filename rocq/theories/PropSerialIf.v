(* C30: an interface written to a stream and read back. *)
From Coq Require Import NArith List Bool.
From Verif Require Import Base Command CoreModel Bits BusModel StatsModel PatternModel InterfaceModel InterfaceSpec InterfaceExamples SerialModel SerialSpec SerialIface SerialRepair SerialExamples.
Import ListNotations.
Local Open Scope N_scope.

(* Write an interface after any calls that the stream keeps, in any order of its
   map of settings, and read it into a newly made one: every later call and query
   of the two gives the same replies.  Missing for the full C30: calls that the
   stream does not keep, and last beats with a byte above one (see below). *)
Theorem C30_checkpoint_invisible_partial : forall p sim i0 xs i order rest,
  iface_new p sim = Value i0 -> calls_run xs i0 = Value i -> forallb (kept (fi_std p)) xs = true ->
  traversal order (settings_of (if_pat i)) -> Forall (fun b => b <= 1) (kept_beats i) ->
  exists j, r_iface i0 (w_iface order i ++ rest) = Got j rest /\ forall later, watch later j = watch later i.
Proof. exact checkpoint_kept. Qed.
Print Assumptions C30_checkpoint_invisible_partial.
Example C30_checkpoint_invisible_case :
  forallb (fun s => good_replay s (first_part s) && forallb (kept s) (first_part s)) [DDR4; DDR5; LPDDR4; LPDDR5; LPDDR6] = true.
Proof. vm_compute. reflexivity. Qed.
Example C30_checkpoint_dbi_case :
  forallb (fun s => good_replay s (SetDbi true :: first_part s) && forallb (kept s) (SetDbi true :: first_part s)) [DDR4; DDR5] = true.
Proof. vm_compute. reflexivity. Qed.
Example C30_checkpoint_beats_case :
  forallb (fun s => match beats_after s (SetDbi true :: first_part s) with Some l => forallb (fun b => b <=? 1) l | None => false end) [DDR4; DDR5] = true.
Proof. vm_compute. reflexivity. Qed.

(* With inversion never switched on nothing is asked of the state. *)
Theorem C30_checkpoint_plain : forall p sim i0 xs i order rest,
  iface_new p sim = Value i0 -> calls_run xs i0 = Value i -> forallb (kept (fi_std p)) xs = true -> forallb no_inversion xs = true ->
  traversal order (settings_of (if_pat i)) ->
  exists j, r_iface i0 (w_iface order i ++ rest) = Got j rest /\ forall later, watch later j = watch later i.
Proof. exact checkpoint_plain. Qed.
Print Assumptions C30_checkpoint_plain.
Example C30_checkpoint_plain_case :
  forallb (fun s => good_replay s (first_part s) && forallb no_inversion (first_part s)) [DDR4; DDR5; LPDDR4; LPDDR5; LPDDR6] = true.
Proof. vm_compute. reflexivity. Qed.

(* A byte above one among the last beats of a DDR4 interface is read into a bool: undefined. *)
Theorem C30_ddr4_undefined : forall p sim i0 xs i order rest,
  iface_new p sim = Value i0 -> calls_run xs i0 = Value i -> forallb (kept (fi_std p)) xs = true ->
  traversal order (settings_of (if_pat i)) -> Exists (fun b => 1 < b) (kept_beats i) ->
  r_iface i0 (w_iface order i ++ rest) = BadBool.
Proof. exact checkpoint_undefined. Qed.
Print Assumptions C30_ddr4_undefined.
Example C30_ddr4_undefined_case :
  match beats_after DDR4 [SetDbi true; a_read DDR4 20; a_read DDR4 24] with Some l => existsb (fun b => 1 <? b) l | None => false end = true /\
  forallb (kept DDR4) [SetDbi true; a_read DDR4 20; a_read DDR4 24] = true.
Proof. split; vm_compute; reflexivity. Qed.

(* Exactly what happens, after any calls whatever: either no last beat of a DDR4
   interface has a byte above one, and every later call and query is answered as by
   the interface written with what the stream cannot hold taken from the one read
   into; or there is such a beat, and reading is undefined. *)
Theorem C30_exactly : forall p sim i0 xs i order rest,
  iface_new p sim = Value i0 -> calls_run xs i0 = Value i -> traversal order (settings_of (if_pat i)) ->
  (Forall (fun b => b <= 1) (kept_beats i) /\ exists j, r_iface i0 (w_iface order i ++ rest) = Got j rest /\ forall later, watch later j = watch later (forgetful i0 i)) \/
  (Exists (fun b => 1 < b) (kept_beats i) /\ r_iface i0 (w_iface order i ++ rest) = BadBool).
Proof. exact checkpoint_any. Qed.
Print Assumptions C30_exactly.
Example C30_exactly_case :
  forallb (fun s => good_replay s (SetMeta 9 3 :: first_part s) && negb (forallb (kept s) (SetMeta 9 3 :: first_part s))) [DDR4; DDR5; LPDDR4; LPDDR5; LPDDR6] = true /\
  forallb (fun s => good_replay s (SetDbi true :: first_part s)) [LPDDR4; LPDDR6] = true /\
  replay (spec_of_std DDR4) [SetDbi true; SetMeta 9 3; a_read DDR4 20; a_read DDR4 24] [] = Unreadable.
Proof. repeat split; vm_compute; reflexivity. Qed.

(* C30 as stated fails.  DDR4: two reads with inversion on, then reading back is undefined. *)
Theorem C30_ddr4_beat_refuted : exists i0 i,
  iface_new (spec_of_std DDR4) None = Value i0 /\ calls_run [SetDbi true; a_read DDR4 20; a_read DDR4 24] i0 = Value i /\
  traversal (as_is i) (settings_of (if_pat i)) /\ r_iface i0 (w_iface (as_is i) i) = BadBool.
Proof. apply (replay_fails _ _ (second_part DDR4)). vm_compute. reflexivity. Qed.
Print Assumptions C30_ddr4_beat_refuted.

(* LPDDR4, LPDDR5, LPDDR6: inversion is off after reading back. *)
Theorem C30_lpddr4_dbi_refuted : exists i0 i j rest,
  iface_new (spec_of_std LPDDR4) None = Value i0 /\ calls_run (SetDbi true :: first_part LPDDR4) i0 = Value i /\
  traversal (as_is i) (settings_of (if_pat i)) /\ r_iface i0 (w_iface (as_is i) i) = Got j rest /\
  watch (second_part LPDDR4) j <> watch (second_part LPDDR4) i.
Proof. apply (differ_replay (fun st => ones (ss_readBus st)) _ _ _ 32 48); [vm_compute; reflexivity|discriminate]. Qed.
Print Assumptions C30_lpddr4_dbi_refuted.
Theorem C30_lpddr5_dbi_refuted : exists i0 i j rest,
  iface_new (spec_of_std LPDDR5) None = Value i0 /\ calls_run (SetDbi true :: [a_read LPDDR5 20; a_read LPDDR5 60]) i0 = Value i /\
  traversal (as_is i) (settings_of (if_pat i)) /\ r_iface i0 (w_iface (as_is i) i) = Got j rest /\
  watch [Call (a_read LPDDR5 100); Ask 200 sim_stats0] j <> watch [Call (a_read LPDDR5 100); Ask 200 sim_stats0] i.
Proof. apply (differ_replay (fun st => ones (ss_readBus st)) _ _ _ 96 128); [vm_compute; reflexivity|discriminate]. Qed.
Print Assumptions C30_lpddr5_dbi_refuted.
Theorem C30_lpddr6_dbi_refuted : exists i0 i j rest,
  iface_new (spec_of_std LPDDR6) None = Value i0 /\ calls_run (SetDbi true :: first_part LPDDR6) i0 = Value i /\
  traversal (as_is i) (settings_of (if_pat i)) /\ r_iface i0 (w_iface (as_is i) i) = Got j rest /\
  watch (second_part LPDDR6) j <> watch (second_part LPDDR6) i.
Proof. apply (differ_replay (fun st => ones (ss_readBus st)) _ _ _ 280 268); [vm_compute; reflexivity|discriminate]. Qed.
Print Assumptions C30_lpddr6_dbi_refuted.

(* LPDDR6: the metadata are lost, and so is that the interface was disabled. *)
Theorem C30_lpddr6_meta_refuted : exists i0 i j rest,
  iface_new (spec_of_std LPDDR6) None = Value i0 /\ calls_run (SetMeta 65535 65535 :: first_part LPDDR6) i0 = Value i /\
  traversal (as_is i) (settings_of (if_pat i)) /\ r_iface i0 (w_iface (as_is i) i) = Got j rest /\
  watch (second_part LPDDR6) j <> watch (second_part LPDDR6) i.
Proof. apply (differ_replay (fun st => ones (ss_readBus st)) _ _ _ 288 272); [vm_compute; reflexivity|discriminate]. Qed.
Print Assumptions C30_lpddr6_meta_refuted.
Theorem C30_lpddr6_disabled_refuted : exists i0 i j rest,
  iface_new (spec_of_std LPDDR6) None = Value i0 /\ calls_run (first_part LPDDR6 ++ [Disable 90]) i0 = Value i /\
  traversal (as_is i) (settings_of (if_pat i)) /\ r_iface i0 (w_iface (as_is i) i) = Got j rest /\
  watch (Call (Enable 95) :: second_part LPDDR6) j <> watch (Call (Enable 95) :: second_part LPDDR6) i.
Proof. apply (differ_replay (fun st => changes (ss_clock st)) _ _ _ 500 360); [vm_compute; reflexivity|discriminate]. Qed.
Print Assumptions C30_lpddr6_disabled_refuted.

(* What the user can do about it.  Metadata set before the checkpoint: repeat the
   last setting after reading, and nothing is lost. *)
Theorem C30_meta_repaired : forall p sim i0 xs i order rest a b,
  iface_new p sim = Value i0 -> calls_run xs i0 = Value i -> forallb (fun x => kept (fi_std p) x || is_meta x) xs = true -> last_meta xs = Some (a, b) ->
  traversal order (settings_of (if_pat i)) -> Forall (fun b => b <= 1) (kept_beats i) ->
  exists j, r_iface i0 (w_iface order i ++ rest) = Got j rest /\ forall later, watch (Call (SetMeta a b) :: later) j = Done (if_last i) :: watch later i.
Proof. exact meta_repaired. Qed.
Print Assumptions C30_meta_repaired.
Example C30_meta_repaired_case :
  let xs := SetMeta 65535 65535 :: first_part LPDDR6 ++ [SetMeta 9 70000] in
  good_replay LPDDR6 xs = true /\ forallb (fun x => kept LPDDR6 x || is_meta x) xs = true /\ last_meta xs = Some (9, 70000) /\ beats_after LPDDR6 xs = Some [].
Proof. repeat split; vm_compute; reflexivity. Qed.

(* An LPDDR6 interface that was switched off: the one read back takes itself to be
   on while its clock stands still.  Switching it on does nothing and switching it
   off ends the program. *)
Theorem C30_off_stuck : forall p sim i0 xs i order rest,
  iface_new p sim = Value i0 -> calls_run xs i0 = Value i -> fi_std p = LPDDR6 -> switched_off xs = true -> traversal order (settings_of (if_pat i)) ->
  exists j, r_iface i0 (w_iface order i ++ rest) = Got j rest /\
    (forall t later, watch (Call (Disable t) :: later) j = [Stopped Assertion]) /\
    (forall t later, watch (Call (Enable t) :: later) j = Done (if_last i) :: watch later j).
Proof. exact off_stuck. Qed.
Print Assumptions C30_off_stuck.
Example C30_off_stuck_case :
  good_replay LPDDR6 (first_part LPDDR6 ++ [Disable 90]) = true /\ switched_off (first_part LPDDR6 ++ [Disable 90]) = true.
Proof. split; vm_compute; reflexivity. Qed.
