(* C09 and C11 outside of their provisos: what happens after histories the protocol
   forbids, and to times that go back. *)
From Coq Require Import NArith List Bool.
From Verif Require Import Base Command CoreModel Bits HistorySpec DeviceSpec ExampleCores InterfaceModel InterfaceSpec InterfaceExamples OutsideSpec OutsideProofs.
Import ListNotations.
Local Open Scope N_scope.

(* C09 needs a legal history.  A bank that is activated again while it is open
   begins its active time anew, the rank does not: the rank has been active for
   longer than all of its banks together. *)
Theorem C09_second_activate_refuted : forall p, In p [ex_ddr4; ex_ddr5; ex_lpddr4; ex_lpddr5; ex_lpddr6] ->
  exists c vs, rank_view p [at_ 10 ACT 0 0; at_ 50 ACT 0 0] 110 0 = Some c /\
    map (bank_view p [at_ 10 ACT 0 0; at_ 50 ACT 0 0] 110 0) (seq 0 (ms_banks p)) = map Some vs /\
    fold_right N.add 0 (map cy_act vs) < cy_act c.
Proof.
  intros p [<-|[<-|[<-|[<-|[<-|[]]]]]].
  1-3: eexists; exists (mkCycles 60 50 0 0 0 0 :: repeat (mkCycles 0 110 0 0 0 0) 3); split; [vm_compute; reflexivity|]; split; vm_compute; reflexivity.
  all: eexists; exists (mkCycles 60 50 0 0 0 0 :: repeat (mkCycles 0 110 0 0 0 0) 15); split; [vm_compute; reflexivity|]; split; vm_compute; reflexivity.
Qed.
Print Assumptions C09_second_activate_refuted.

(* On LPDDR6 a power-down exit that has no entry makes the rank active although
   none of its banks is. *)
Theorem C09_exit_without_entry_refuted : exists c vs, rank_view ex_lpddr6 [at_ 10 PDXA 0 0] 110 0 = Some c /\
  map (bank_view ex_lpddr6 [at_ 10 PDXA 0 0] 110 0) (seq 0 (ms_banks ex_lpddr6)) = map Some vs /\
  Forall (fun v => cy_act v = 0) vs /\ cy_act c = 100.
Proof.
  eexists. exists (repeat (mkCycles 0 110 0 0 0 0) 16). split; [vm_compute; reflexivity|]. split; [vm_compute; reflexivity|].
  split; [repeat constructor|]. vm_compute. reflexivity.
Qed.
Print Assumptions C09_exit_without_entry_refuted.

(* C11 needs times that do not decrease.  The commands take the maximum, but the
   drain of the queue assigns: a command given late, with an early time, takes the
   time of the last command back. *)
Theorem C11_out_of_order_refuted : forall p, In p [ex_ddr4; ex_ddr5; ex_lpddr4; ex_lpddr5; ex_lpddr6] ->
  exists s s', run_core p [at_ 0 ACT 0 0; at_ 200 ACT 0 1; at_ 10 RDA 0 0] (core_new p) = Ok s /\
    run_core p [at_ 0 ACT 0 0; at_ 200 ACT 0 1; at_ 10 RDA 0 0; at_ 100 PRE 0 1] (core_new p) = Ok s' /\
    get_last_command_time s = 200 /\ get_last_command_time s' = 100.
Proof.
  intros p [<-|[<-|[<-|[<-|[<-|[]]]]]]; do 2 eexists; (split; [vm_compute; reflexivity|]); (split; [vm_compute; reflexivity|]); split; vm_compute; reflexivity.
Qed.
Print Assumptions C11_out_of_order_refuted.

(* The interface keeps the time of the command given last, whatever came before,
   and of the last time it was switched on or off. *)
Theorem C11_interface_last_time : forall p sim i0 xs i, iface_new p sim = Value i0 -> calls_run xs i0 = Value i -> if_last i = set_last true 0 xs.
Proof. exact interface_last. Qed.
Print Assumptions C11_interface_last_time.
Example C11_interface_last_time_case : exists i0 i, iface_new (spec_of_std LPDDR6) None = Value i0 /\ calls_run (a_day LPDDR6) i0 = Value i /\
  set_last true 0 (a_day LPDDR6) = 200 /\ set_last true 0 (firstn 5 (a_day LPDDR6)) = 110.
Proof. do 2 eexists. split; [vm_compute; reflexivity|]. split; [vm_compute; reflexivity|]. split; reflexivity. Qed.

(* So it is not the time of the latest command. *)
Theorem C11_interface_latest_refuted : exists i0 i j, iface_new (spec_of_std LPDDR4) None = Value i0 /\
  calls_run [Do (cmd_at 10 ACT 1 3 0 []); Do (cmd_at 50 RD 1 0 9 row1)] i0 = Value i /\ call_do (Do (cmd_at 20 END_OF_SIMULATION 0 0 0 [])) i = Value j /\
  if_last i = 50 /\ if_last j = 20.
Proof. do 3 eexists. split; [vm_compute; reflexivity|]. split; [vm_compute; reflexivity|]. split; [vm_compute; reflexivity|]. split; reflexivity. Qed.
Print Assumptions C11_interface_latest_refuted.
