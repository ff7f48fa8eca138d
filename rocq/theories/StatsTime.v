(* The time getStats asks for, after any mixture of commands; who may switch the
   parity on. *)
From Coq Require Import NArith QArith List Bool Lia.
From Verif Require Import Base Command CoreModel Bits HistorySpec StatsModel InterfaceModel InterfaceSpec InterfaceCa DramModel DramSpec DramProofs CliTop.
Import ListNotations.
Local Open Scope N_scope.

(* doCommand, doCoreCommand and doInterfaceCommand. *)
Definition is_command (u : use) : Prop := match u with Both _ | CoreOnly _ | Iface (Do _) => True | _ => False end.
(* The times of the commands the core gets, and of those the interface gets. *)
Definition core_times (us : list use) : list N := flat_map (fun u => match u with Both c | CoreOnly c => [cmd_ts c] | _ => [] end) us.
Definition iface_times (us : list use) : list N := flat_map (fun u => match u with Both c | Iface (Do c) => [cmd_ts c] | _ => [] end) us.

Definition core_cmds (us : list use) : list Command := flat_map (fun u => match u with Both c | CoreOnly c => [c] | _ => [] end) us.
Definition iface_cmds (us : list use) : list Command := flat_map (fun u => match u with Both c | Iface (Do c) => [c] | _ => [] end) us.
Lemma core_cmds_times us : map cmd_ts (core_cmds us) = core_times us.
Proof. induction us as [|[c|c|[c|e|a b|e|t|t]|t] us IH]; first [ reflexivity | exact IH | exact (f_equal (cons _) IH) ]. Qed.
Lemma iface_cmds_times us : map cmd_ts (iface_cmds us) = iface_times us.
Proof. induction us as [|[c|c|[c|e|a b|e|t|t]|t] us IH]; first [ reflexivity | exact IH | exact (f_equal (cons _) IH) ]. Qed.
Lemma core_cmds_ops us : Forall is_command us -> core_ops us = map Cmd (core_cmds us).
Proof. intro F. induction F as [|u us U F IH]; [ reflexivity |]. destruct u as [c|c|[c|e|a b|e|t|t]|t]; try contradiction U; first [ exact IH | exact (f_equal (cons _) IH) ]. Qed.
Lemma iface_cmds_calls us : Forall is_command us -> iface_calls us = map Do (iface_cmds us).
Proof. intro F. induction F as [|u us U F IH]; [ reflexivity |]. destruct u as [c|c|[c|e|a b|e|t|t]|t]; try contradiction U; first [ exact IH | exact (f_equal (cons _) IH) ]. Qed.
Lemma ops_core p : forall cs s s' a, run_ops p (map Cmd cs) s = Ok (s', a) -> run_core p cs s = Ok s'.
Proof.
  induction cs as [|c cs IH]; intros s s' a E; cbn [map run_ops run_core] in *.
  - injection E as <- _. reflexivity.
  - destruct (do_command p c s) as [s1| | |]; try discriminate. eapply IH. exact E.
Qed.
Theorem stats_time p us d0 d : Forall is_command us -> dram_new p = Value d0 -> uses_run p us d0 = Returned d -> nondecreasing 0 (core_times us) ->
  dram_stats p d = dram_window p (N.max (final_time 0 (core_times us)) (final_time 0 (iface_times us))) d.
Proof.
  intros F New Run Nd. unfold dram_stats, dram_last_time. unfold dram_new in New. apply bind_inv in New as (i0 & Ni & New). injection New as <-.
  apply uses_split in Run as ((a & Rc) & Ri). cbn [dr_core dr_if] in *. rewrite core_cmds_ops in Rc by exact F. rewrite iface_cmds_calls in Ri by exact F.
  apply ops_core in Rc. rewrite <- core_cmds_times in *. rewrite <- iface_cmds_times.
  rewrite (CoreBounds.last_time_commands _ _ _ Nd Rc). rewrite (calls_last _ _ _ _ Ri (new_last _ _ _ Ni)). reflexivity.
Qed.

Theorem parity_allowed p sim i0 xs i e : iface_new p sim = Value i0 -> calls_run xs i0 = Value i ->
  ((exists i', call_do (SetParity e) i = Value i') <-> (e = true -> fi_wck_on p = true)).
Proof.
  intros New Run. apply calls_spec in Run. apply InterfaceTop.new_built in New. rewrite (InterfaceTop.bt_spec _ _ _ New) in Run.
  cbn [call_do]. unfold if_set_parity. rewrite Run. split.
  - intros (i' & E). apply check_inv in E as [E _]. intros ->. destruct (fi_wck_on p); [ reflexivity | discriminate ].
  - intro H. assert (fi_wck_on p || negb e = true) as ->; [ destruct e; [ rewrite H by reflexivity; reflexivity | apply orb_true_r ] |].
    cbn [check]. destruct (if_pat i); eexists; reflexivity.
Qed.
