(* Cases for PropCompose.v: the day of ProgressExamples.v, twice and three times. *)
From Coq Require Import NArith QArith List Bool Lia ZifyBool ZifyN.
From Verif Require Import Base Command CoreModel HistorySpec DeviceSpec DeviceFacts ExampleCores Bits InterfaceModel StatsModel EnergyModel EnergySpec DramModel DramExamples
  ProgressSpec ProgressProofs ProgressQuery ProgressExamples ProgressTop ChargeSpec ChargeBase ChargeProofs ChargeTop ComposeSpec ComposeProofs ComposeTop ComposeMain.
Import ListNotations.
Local Open Scope N_scope.

Fixpoint ndb (t : N) (l : list N) : bool := match l with [] => true | x :: l => (t <=? x) && ndb x l end.
Lemma ndb_ok l : forall t, ndb t l = true -> nondecreasing t l.
Proof. induction l as [|x l IH]; intros t H; cbn; [exact Logic.I|]. cbn in H. apply andb_true_iff in H as [A B]. apply N.leb_le in A. auto. Qed.
Definition timelyb (p : memspec) (cs : list Command) (t : N) : bool :=
  ndb 0 (map cmd_ts cs) && forallb (fun x => x + tmax p <? two64) (map cmd_ts cs) && (final_time 0 (map cmd_ts cs) <=? t) && (t <? two64) && (N.of_nat (length cs) <? two64).
Lemma timely_by p cs t : timelyb p cs t = true -> timely p cs t.
Proof.
  unfold timelyb. intros H. apply andb_true_iff in H as [H H5]. apply andb_true_iff in H as [H H4]. apply andb_true_iff in H as [H H3]. apply andb_true_iff in H as [H1 H2].
  split; [now apply ndb_ok|]. split; [|split; [now apply N.leb_le|split; now apply N.ltb_lt]].
  rewrite forallb_forall in H2. apply Forall_forall. intros x Hx. specialize (H2 x Hx). now apply N.ltb_lt in H2.
Qed.
Definition memory (s : standard) : memspec := dp_core (ex_dspec s).
Lemma day_rests s : rests (memory s) (day_commands s) 1000.
Proof. apply rests_by; [apply day_legal|]. destruct s; vm_compute; reflexivity. Qed.
Lemma day_twice s : timely (memory s) (day_commands s ++ later 1000 (day_commands s)) 2000.
Proof. apply timely_by. destruct s; vm_compute; reflexivity. Qed.
Lemma day_late s : timely (memory s) (later 500 (day_commands s)) 1500.
Proof. apply timely_by. destruct s; vm_compute; reflexivity. Qed.
Lemma day_thrice s : timely (memory s) (looped 1000 (day_commands s) 3) 3000.
Proof. apply timely_by. destruct s; vm_compute; reflexivity. Qed.

(* Two traces of which the first leaves a row open. *)
Lemma open_row_carries : exists p cs1 cs2 T t, DeviceSpec.well_formed p /\ legal_history p cs1 /\ legal_history p cs2 /\ timely p cs1 T /\ timely p cs2 t /\
  timely p (cs1 ++ later T cs2) (T + t) /\ legal_history p (cs1 ++ later T cs2) /\
  exists v1 v2, rank_view p cs1 T 0 = Some v1 /\ rank_view p cs2 t 0 = Some v2 /\ rank_view p (cs1 ++ later T cs2) (T + t) 0 <> Some (cycles_sum v1 v2).
Proof.
  exists (memory DDR4), short_day, [], 60, 40. assert (W : DeviceSpec.well_formed (memory DDR4)) by apply day_legal.
  pose proof short_day_legal as [T L]. pose proof (legal_nil (memory DDR4)) as LN.
  assert (TB : timely (memory DDR4) (short_day ++ later 60 []) (60 + 40)) by (apply timely_by; vm_compute; reflexivity).
  assert (T2 : timely (memory DDR4) [] 40) by (apply timely_by; vm_compute; reflexivity).
  assert (LB : legal_history (memory DDR4) (short_day ++ later 60 [])) by (cbn [later map]; rewrite app_nil_r; exact L).
  repeat (split; [assumption|]). eexists; eexists. split; [vm_compute; reflexivity|]. split; [vm_compute; reflexivity|]. vm_compute. discriminate.
Qed.
