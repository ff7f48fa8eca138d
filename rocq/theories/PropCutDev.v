(* C83: a whole device read from a stream that breaks off. *)
From Coq Require Import NArith List Bool.
From Verif Require Import Base Command Bits CoreModel SerialModel SerialSpec InterfaceModel SerialExamples DramModel DramExamples ExtensionModel ExtensionSpec ExtensionExamples
  CutModel CutSpec CutIfModel CutIfSpec CutDevModel CutDevSpec CutDevProofs.
Import ListNotations.
Local Open Scope N_scope.

(* A read that the model of whole streams allows is the same read. *)
Theorem C83_whole : forall d s y r, r_device d s = Value (Got y r) -> l_device d s = Value (Kept y r).
Proof. exact device_whole. Qed.
Print Assumptions C83_whole.
Example C83_whole_case : forallb (fun s => match restored (ex_dspec s) (device_day s) with Some _ => true | None => false end) [DDR4; DDR5; LPDDR4; LPDDR5; LPDDR6] = true.
Proof. vm_compute. reflexivity. Qed.

(* The stream of a device: its extensions, its core, its interface. *)
Theorem C83_stream : forall p d0 ys o xs n order,
  device_new p = Value d0 -> duses_run p ys d0 = Returned o -> duses_run p xs d0 = Returned n ->
  w_device order n = Value (ext_items n ++ w_core (dr_core (dv_dram n)) ++ w_iface order (dr_if (dv_dram n))).
Proof. exact device_stream. Qed.
Print Assumptions C83_stream.

(* DDR4: a stream that breaks off before the interface is undefined to read, into whatever
   device of the same make. *)
Theorem C83_ddr4 : forall p d0 ys o xs n u v,
  device_new p = Value d0 -> duses_run p ys d0 = Returned o -> duses_run p xs d0 = Returned n ->
  fi_std (dp_if p) = DDR4 -> ext_items n ++ w_core (dr_core (dv_dram n)) = u ++ v -> l_device o u = Value Unset.
Proof. exact ddr4_device. Qed.
Print Assumptions C83_ddr4.
Example C83_ddr4_case : exists d0 d, device_new (ex_dspec DDR4) = Value d0 /\ duses_run (ex_dspec DDR4) (device_day DDR4) d0 = Returned d /\
  fi_std (dp_if (ex_dspec DDR4)) = DDR4 /\ length (ext_items d ++ w_core (dr_core (dv_dram d))) = 400%nat.
Proof. do 2 eexists. split; [vm_compute; reflexivity|]. split; [vm_compute; reflexivity|]. split; vm_compute; reflexivity. Qed.

(* The others.  A break among the extensions: what was read of them is new, metadata
   that was not read becomes zero, the core forgets its intervals, and the interface its bursts, settings and clock starts.  No error is
   raised. *)
Theorem C83_extensions : forall p d0 ys o xs n u v,
  device_new p = Value d0 -> duses_run p ys d0 = Returned o -> duses_run p xs d0 = Returned n ->
  fi_std (dp_if p) <> DDR4 -> ext_items n = u ++ v ->
  exists z, l_device o u = Value (Kept z []) /\ ext_items z = firstn (length u) (ext_items n) ++ map unread_item (skipn (length u) (ext_items o)) /\
    members (core_fields (dr_core (dv_dram z))) = map unread (members (core_fields (dr_core (dv_dram o)))) /\ co_queue (dr_core (dv_dram z)) = co_queue (dr_core (dv_dram o)) /\
    lost (dr_if (dv_dram o)) (dr_if (dv_dram z)).
Proof. exact cut_in_exts. Qed.
Print Assumptions C83_extensions.
Example C83_extensions_case : exists d0 d, device_new (ex_dspec LPDDR6) = Value d0 /\ duses_run (ex_dspec LPDDR6) [DbiEnable true; MetaSet 5 9] d0 = Returned d /\
  fi_std (dp_if (ex_dspec LPDDR6)) <> DDR4 /\ ext_items d = [I_bool true; I_u16 5] ++ [I_u16 9] /\ ext_items d0 = [I_bool false; I_u16 0; I_u16 0].
Proof. do 2 eexists. split; [vm_compute; reflexivity|]. split; [vm_compute; reflexivity|]. split; [discriminate|]. split; reflexivity. Qed.

(* A break inside the core: the extensions are new, the core is what C79 says, the
   interface again loses those. *)
Theorem C83_core : forall p d0 ys o xs n u v,
  device_new p = Value d0 -> duses_run p ys d0 = Returned o -> duses_run p xs d0 = Returned n ->
  fi_std (dp_if p) <> DDR4 -> w_core (dr_core (dv_dram n)) = u ++ v ->
  exists z, l_device o (ext_items n ++ u) = Value (Kept z []) /\ dv_ext z = dv_ext n /\
    left_behind (core_fields (dr_core (dv_dram n))) (core_fields (dr_core (dv_dram o))) u (members (core_fields (dr_core (dv_dram z)))) /\
    co_queue (dr_core (dv_dram z)) = co_queue (dr_core (dv_dram o)) /\ lost (dr_if (dv_dram o)) (dr_if (dv_dram z)).
Proof. exact cut_in_core. Qed.
Print Assumptions C83_core.
Example C83_core_case : exists d0 d, device_new (ex_dspec LPDDR4) = Value d0 /\ duses_run (ex_dspec LPDDR4) (device_day LPDDR4) d0 = Returned d /\
  fi_std (dp_if (ex_dspec LPDDR4)) <> DDR4 /\ (40 < length (w_core (dr_core (dv_dram d))))%nat /\ map stale (parts (dr_if (dv_dram d))) <> parts (dr_if (dv_dram d)).
Proof. do 2 eexists. split; [vm_compute; reflexivity|]. split; [vm_compute; reflexivity|]. split; [discriminate|]. split; [vm_compute; repeat constructor|vm_compute; discriminate]. Qed.

(* A break inside the interface: the extensions and the core are those of the writer (but
   for the queue, which is never written), and the interface is what C82 says. *)
Theorem C83_interface : forall p d0 ys o xs n w,
  device_new p = Value d0 -> duses_run p ys d0 = Returned o -> duses_run p xs d0 = Returned n ->
  l_device o (ext_items n ++ w_core (dr_core (dv_dram n)) ++ w) =
  Value (match l_run (o_iface (dr_if (dv_dram o))) w with
         | Kept i r => Kept (mkDevice (dv_ext n) (mkDram (mkCore (co_ranks (dr_core (dv_dram n))) (co_queue (dr_core (dv_dram o))) (co_last (dr_core (dv_dram n)))) i)) r
         | Unset => Unset
         | Other => Other
         end).
Proof. exact cut_in_iface. Qed.
Print Assumptions C83_interface.
(* What the stream, broken off after k values, does to the device itself. *)
Definition cut_at (s : standard) (k : nat) : option bool :=
  match cut_device s k with Some (_, _, _, Kept _ []) => Some true | Some (_, _, _, Unset) => Some false | _ => None end.
Example C83_interface_case :
  map (cut_at DDR4) [0%nat; 243%nat; 400%nat; 518%nat] = [Some false; Some false; Some false; Some false] /\ map (cut_at LPDDR4) [0%nat; 100%nat; 300%nat; 530%nat] = [Some true; Some true; Some true; Some true].
Proof. split; vm_compute; reflexivity. Qed.

(* Reading a stream that broke off raises no error, yet the device is not usable
   afterwards: its next command is undefined, although the device it was written by, and read
   into, goes on well. *)
Theorem C83_usable_refuted : forall s, s <> DDR4 -> exists d0 d w z,
  device_new (ex_dspec s) = Value d0 /\ duses_run (ex_dspec s) (device_day s) d0 = Returned d /\ w_device (as_is (dr_if (dv_dram d))) d = Value w /\ (40 < length w)%nat /\
  l_device d (firstn 40 w) = Value (Kept z []) /\ (exists a b c e, dwatch (ex_dspec s) (next_use s) d = [Seen a b c e]) /\ dwatch (ex_dspec s) (next_use s) z = [InterfaceBroke UB].
Proof. exact cut_device_breaks. Qed.
Print Assumptions C83_usable_refuted.
