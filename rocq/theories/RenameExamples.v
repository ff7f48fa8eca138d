(* Cases for PropRename.v. *)
From Coq Require Import NArith QArith List Bool Lia Arith ZifyBool.
From Verif Require Import Base Command CoreModel HistorySpec DeviceSpec DeviceFacts ExampleCores Bits InterfaceModel InterfaceExamples StatsModel EnergyModel EnergySpec DramModel DramExamples
  ProgressSpec ProgressProofs ProgressQuery ProgressExamples ProgressTop ChargeSpec ChargeBase ChargeProofs ChargeTop ComposeMain ComposeExamples RenameSpec RenameProofs RenameTop.
Import ListNotations.
Local Open Scope N_scope.

Definition renumbersb (n : nat) (f : nat -> nat) : bool :=
  forallb (fun i => (f i <? n)%nat && forallb (fun j => negb (f i =? f j)%nat || (i =? j)%nat) (seq 0 n)) (seq 0 n).
Lemma renumbers_by n f : renumbersb n f = true -> renumbers n f.
Proof.
  intros H. unfold renumbersb in H. rewrite forallb_forall in H. split.
  - intros i Hi. specialize (H i ltac:(apply in_seq; lia)). apply andb_true_iff in H as [H _]. lia.
  - intros i j Hi Hj E. specialize (H i ltac:(apply in_seq; lia)). apply andb_true_iff in H as [_ H]. rewrite forallb_forall in H. specialize (H j ltac:(apply in_seq; lia)). lia.
Qed.
Definition compatibleb (p : memspec) (sg pi : nat -> nat) (c : Command) : bool :=
  forallb (fun i => Bool.eqb (footprint p (rename sg pi c) (pi i)) (footprint p c i)) (seq 0 (ms_banks p)).
Lemma compatible_by p sg pi cs : forallb (compatibleb p sg pi) cs = true -> Forall (compatible p sg pi) cs.
Proof.
  rewrite forallb_forall, Forall_forall. intros H c Hc i Hi. specialize (H c Hc). unfold compatibleb in H. rewrite forallb_forall in H. specialize (H i ltac:(apply in_seq; lia)). now apply eqb_prop.
Qed.
(* Five banks further on, and the other rank of two. *)
Definition five_on (i : nat) : nat := Nat.modulo (i + 5) 16.
Definition other (r : nat) : nat := Nat.modulo (r + 1) 2.
Definition itself (r : nat) : nat := r.
Lemma day_renumbers s : renumbers (ms_ranks (memory s)) itself /\ renumbers (ms_banks (memory s)) five_on /\ Forall (compatible (memory s) itself five_on) (day_commands s).
Proof. split; [|split]; [apply renumbers_by|apply renumbers_by|apply compatible_by]; destruct s; vm_compute; reflexivity. Qed.
(* Two banks of a DDR5 bank group exchanged. *)
Definition swap (i : nat) : nat := match i with O => 1%nat | S O => 0%nat | _ => i end.
Lemma swap_breaks : exists p cs t r b k, DeviceSpec.well_formed p /\ renumbers (ms_banks p) swap /\ timely p cs t /\ legal_history p cs /\ (r < ms_ranks p)%nat /\ (b < ms_banks p)%nat /\
  exists n n', bank_counter p cs t r b k = Some n /\ bank_counter p (map (rename itself swap) cs) t r (swap b) k = Some n' /\ n <> n'.
Proof.
  exists (memory DDR5), [cmd_at 10 REFSB 0 0 0 []], 200, 0%nat, 4%nat, K_refSameBank. split; [apply day_legal|]. split; [apply renumbers_by; vm_compute; reflexivity|].
  split; [apply timely_by; vm_compute; reflexivity|]. split; [show_legal|]. split; [vm_compute; repeat constructor|]. split; [vm_compute; repeat constructor|].
  eexists; eexists. split; [vm_compute; reflexivity|]. split; [vm_compute; reflexivity|discriminate].
Qed.
