(* C82: an interface read from a stream that breaks off. *)
From Coq Require Import NArith List Bool.
From Verif Require Import Base Command CoreModel Bits BusModel PatternModel InterfaceModel InterfaceSpec InterfaceExamples SerialModel SerialSpec SerialExamples CutIfModel CutIfSpec CutIfProofs.
Import ListNotations.
Local Open Scope N_scope.

(* A read that the model of whole streams allows is the same read. *)
Theorem C82_whole : forall o s y r, r_iface o s = Got y r -> l_run (o_iface o) s = Kept y r.
Proof. exact whole. Qed.
Print Assumptions C82_whole.
Example C82_whole_case :
  forallb (fun s =>
    match iface_new (spec_of_std s) None with
    | Value i0 => match calls_run (first_part s) i0 with
                  | Value i => match r_iface i0 (w_iface (as_is i) i ++ [I_u8 7]) with Got j [I_u8 7] => if_last j =? 60 | _ => false end
                  | _ => false
                  end
    | _ => false
    end) [DDR4; DDR5; LPDDR4; LPDDR5; LPDDR6] = true.
Proof. vm_compute. reflexivity. Qed.

(* DDR5 and the LPDDR standards.  Wherever the stream of one interface n breaks off, read
   into another one o of the same make: if it breaks off among the settings of the encoder
   the read is undefined.  Everywhere else it ends: the members before the break are those
   of n, the members after it are those of o with the bursts of the buses, the starts
   of the clocks and the settings lost, and what is not written is that of o. *)
Theorem C82_cut : forall p sim i0 ys o xs n order u v,
  fi_std p <> DDR4 -> iface_new p sim = Value i0 -> calls_run ys i0 = Value o -> calls_run xs i0 = Value n -> traversal order (settings_of (if_pat n)) ->
  w_iface order n = u ++ v ->
  if among_settings order n u then l_run (o_iface o) u = Unset
  else exists z k e, l_run (o_iface o) u = Kept z [] /\ at_break order (parts n) k e /\ u = flat_map (part_items order) (firstn k (parts n)) ++ e /\
    Forall2 same_part (firstn k (parts n)) (firstn k (parts z)) /\ skipn (done_from k e) (parts z) = map stale (skipn (done_from k e) (parts o)) /\
    not_written z = not_written o.
Proof. exact cut. Qed.
Print Assumptions C82_cut.
(* A stream of n items read by a new interface: undefined or the time that was read. *)
Definition cut_off (s : standard) (n : nat) : option (bool * option N) :=
  match iface_new (spec_of_std s) None with
  | Value i0 => match calls_run (first_part s) i0 with
                | Value i => let u := firstn n (w_iface (as_is i) i) in
                             Some (among_settings (as_is i) i u, match l_run (o_iface i0) u with Kept z [] => Some (if_last z) | _ => None end)
                | _ => None
                end
  | _ => None
  end.
Example C82_cut_case :
  map (cut_off LPDDR4) [0%nat; 1%nat; 2%nat; 3%nat; 30%nat; 40%nat] =
    [Some (false, Some 0); Some (false, Some 60); Some (true, None); Some (true, None); Some (false, Some 60); Some (false, Some 60)] /\
  map (cut_off LPDDR6) [0%nat; 1%nat; 2%nat; 3%nat; 50%nat] =
    [Some (false, Some 0); Some (false, Some 60); Some (false, Some 60); Some (false, Some 60); Some (false, Some 60)].
Proof. split; vm_compute; reflexivity. Qed.

(* A stream with nothing in it. *)
Theorem C82_empty : forall o, fi_std (if_spec o) <> DDR4 ->
  exists z, l_run (o_iface o) [] = Kept z [] /\ parts z = map stale (parts o) /\ not_written z = not_written o.
Proof. exact nothing. Qed.
Print Assumptions C82_empty.
Example C82_empty_case :
  match iface_new (spec_of_std LPDDR5) None with
  | Value i0 => match calls_run (first_part LPDDR5) i0 with
                | Value o => fi_std (if_spec o) <> DDR4 /\ map stale (parts o) <> parts o
                | _ => False
                end
  | _ => False
  end.
Proof. vm_compute. split; discriminate. Qed.

(* DDR4: the lengths inside the inverter are read into variables that were never set.
   With fewer than 119 values in the stream at least one of them is used. *)
Theorem C82_ddr4_cut : forall p sim i0 ys o u v n rest,
  fi_std p = DDR4 -> iface_new p sim = Value i0 -> calls_run ys i0 = Value o -> (length u < 119)%nat ->
  r_iface o (u ++ v) = Got n rest -> l_run (o_iface o) u = Unset.
Proof. exact ddr4_cut. Qed.
Print Assumptions C82_ddr4_cut.
Theorem C82_ddr4_empty : forall p sim i0 ys o,
  fi_std p = DDR4 -> iface_new p sim = Value i0 -> calls_run ys i0 = Value o -> l_run (o_iface o) [] = Unset.
Proof. exact ddr4_nothing. Qed.
Print Assumptions C82_ddr4_empty.
Example C82_ddr4_case :
  match iface_new (spec_of_std DDR4) None with
  | Value i0 => match calls_run (first_part DDR4) i0 with
                | Value i => let s := w_iface (as_is i) i in
                             match r_iface i0 (firstn 118 s ++ skipn 118 s) with Got n [] => if_last n =? 60 | _ => false end
                | _ => false
                end
  | _ => false
  end = true.
Proof. vm_compute. reflexivity. Qed.

(* Reading nothing does not leave the interface as it was: the buses keep the number of
   bursts they stored but not the bursts, and the next read command is undefined. *)
Theorem C82_nothing_refuted : forall s, s <> DDR4 -> exists i0 o z,
  iface_new (spec_of_std s) None = Value i0 /\ calls_run (first_part s) i0 = Value o /\ l_run (o_iface o) [] = Kept z [] /\
  (exists l, watch [Call (a_read s 100)] o = [Done l]) /\ watch [Call (a_read s 100)] z = [Stopped UB].
Proof. exact nothing_breaks. Qed.
Print Assumptions C82_nothing_refuted.
