(* The concrete cases of C43 and C44. *)
From Coq Require Import NArith QArith List Bool Lia.
From Verif Require Import Base Command CoreModel Bits BusModel WaveSpec BusProofs ClockProofs BitFacts ToggleModel StatsModel PatternModel PatternTables InterfaceModel InterfaceSpec InterfaceExamples.
Import ListNotations.
Local Open Scope N_scope.

Ltac now_vm := vm_compute; (reflexivity || (intro; discriminate) || (repeat split; (reflexivity || (intro; discriminate)))).
Lemma exists_two {A B} (x : result A) (f : A -> result B) : match x with Value a => match f a with Value _ => true | Fails _ => false end | Fails _ => false end = true ->
  exists a b, x = Value a /\ f a = Value b.
Proof. destruct x as [a|]; [|discriminate]. destruct (f a) as [b|] eqn:E; [|discriminate]. intros _. now exists a, b. Qed.
Lemma exists_value {A} (x : result A) (f : A -> bool) : match x with Value a => f a | Fails _ => false end = true -> exists a, x = Value a /\ f a = true.
Proof. destruct x as [a|]; [|discriminate]. now exists a. Qed.

Lemma sizes s : sizes_ok (spec_of_std s).
Proof. destruct s; (split; [|split]); vm_compute; reflexivity. Qed.
Lemma day_runs :
  Forall (fun s => sizes_ok (spec_of_std s) /\ (fi_std (spec_of_std s) = LPDDR6 -> fi_groups (spec_of_std s) = 4) /\
                   (exists i0 i, iface_new (spec_of_std s) None = Value i0 /\ calls_run (a_day s) i0 = Value i) /\
                   Forall (fun c => cmd_ts c <= 200 /\ cmd_ts c + burst_cycles (spec_of_std s) true c < two64) (commands (a_day s)))
         [DDR4; DDR5; LPDDR4; LPDDR5; LPDDR6].
Proof.
  assert (forall s, (forall c, In c (commands (a_day s)) -> (cmd_ts c <=? 200) && (cmd_ts c + burst_cycles (spec_of_std s) true c <? two64) = true) ->
    Forall (fun c => cmd_ts c <= 200 /\ cmd_ts c + burst_cycles (spec_of_std s) true c < two64) (commands (a_day s))) as A.
  { intros s H. apply Forall_forall. intros c I. specialize (H c I). apply andb_true_iff in H as [H1 H2]. now apply N.leb_le in H1; apply N.ltb_lt in H2. }
  assert (forall s, forallb (fun c => (cmd_ts c <=? 200) && (cmd_ts c + burst_cycles (spec_of_std s) true c <? two64)) (commands (a_day s)) = true) as B by (intros []; vm_compute; reflexivity).
  repeat (apply Forall_cons; [split; [apply sizes|split; [intros; reflexivity|split; [apply exists_two; vm_compute; reflexivity|apply A; apply forallb_forall, B]]]|]). apply Forall_nil.
Qed.
Lemma words_shown :
  ca_drives (spec_of_std LPDDR4) true [cmd_at 20 RD 1 0 9 row1; cmd_at 30 PRE 5 0 0 []] = [(20, [16; 32; 18; 0]); (30, [2; 40])].
Proof. vm_compute. reflexivity. Qed.

Fixpoint order_b p bus wanted (from until : N) (cs : list Command) : bool :=
  match cs with
  | [] => from <=? until
  | c :: r => if match transfers (cmd_type c) with Some read => wanted read | None => false end
              then (from <=? cmd_ts c) && order_b p bus wanted (cmd_ts c + burst_cycles p bus c) until r
              else order_b p bus wanted from until r
  end.
Lemma order_ok p bus wanted cs : forall from until, order_b p bus wanted from until cs = true -> bursts_in_order p bus wanted from until cs.
Proof.
  induction cs as [|c r IH]; intros from until H; [now apply N.leb_le|]. cbn [order_b bursts_in_order] in *.
  destruct (match transfers (cmd_type c) with Some read => wanted read | None => false end); [|now apply IH].
  apply andb_true_iff in H as [H1 H2]. apply N.leb_le in H1. split; [exact H1|now apply IH].
Qed.
Lemma day_strobes :
  Forall (fun s => Forall (command_ok (spec_of_std s) true) (commands (a_day s)) /\
                   bursts_in_order (spec_of_std s) true wants_read 0 200 (commands (a_day s)) /\
                   bursts_in_order (spec_of_std s) true negb 0 200 (commands (a_day s)) /\
                   exists st, stats_after (spec_of_std s) None (a_day s) 200 = Value st /\ ss_readDQS st <> stats0)
         [DDR4; DDR5; LPDDR4; LPDDR5; LPDDR6].
Proof.
  assert (forall s, forallb (fun c => (cmd_ts c * ca_beats (fi_std (spec_of_std s)) + 64 <? two64) && (cmd_ts c + burst_cycles (spec_of_std s) true c <? two64)) (commands (a_day s)) = true) as B by (intros []; vm_compute; reflexivity).
  assert (forall s, Forall (command_ok (spec_of_std s) true) (commands (a_day s))) as A.
  { intros s. apply Forall_forall. intros c I. specialize (B s). rewrite forallb_forall in B. specialize (B c I). cbv beta in B. apply andb_true_iff in B as [H1 H2]. split; now apply N.ltb_lt. }
  assert (forall s, exists st, stats_after (spec_of_std s) None (a_day s) 200 = Value st /\ negb (ones (ss_readDQS st) =? 0) = true) as E.
  { intros s. apply exists_value. destruct s; vm_compute; reflexivity. }
  repeat (apply Forall_cons; [split; [apply A|split; [apply order_ok; vm_compute; reflexivity|split; [apply order_ok; vm_compute; reflexivity|]]]|]); try apply Forall_nil.
  all: match goal with |- exists st, stats_after (spec_of_std ?s) _ _ _ = _ /\ _ => destruct (E s) as (st & E1 & E2) end; exists st; (split; [exact E1|]); intros X; rewrite X in E2; discriminate E2.
Qed.
Lemma day_wck :
  (fi_wck_on (spec_of_std LPDDR5) = true /\ in_order 0 200 (switching true (a_day LPDDR5))) /\
  (fi_wck_on (spec_of_std LPDDR6) = false /\ bursts_in_order (spec_of_std LPDDR6) true wants_any 0 200 (commands (a_day LPDDR6))) /\
  total_cycles (spec_of_std LPDDR6) true wants_any (commands (a_day LPDDR6)) = 24.
Proof.
  split; [split; [reflexivity|now_vm]|]. split; [split; [reflexivity|apply order_ok; vm_compute; reflexivity]|vm_compute; reflexivity].
Qed.
Lemma day_clock :
  in_order 0 200 (switching true (a_day LPDDR6)) /\ running_cycles true (switching true (a_day LPDDR6)) 200 = 190.
Proof. split; now_vm. Qed.

Definition flight : list call := [Do (cmd_at 20 RD 1 0 9 row1)].
Lemma stats_split p sim xs t i0 i st : iface_new p sim = Value i0 -> calls_run xs i0 = Value i -> stats_after p sim xs t = Value st -> if_window i t sim_stats0 = Value st.
Proof. unfold stats_after. intros -> E. cbn [bind]. rewrite E. exact (fun H => H). Qed.
Lemma strobe_in_flight : exists p xs t i0 i st,
  sizes_ok p /\ iface_new p None = Value i0 /\ calls_run xs i0 = Value i /\ Forall (fun c => cmd_ts c < t) (commands xs) /\
  dqs_rate p = 2 * 1 /\ if_window i t sim_stats0 = Value st /\
  ss_readDQS st <> scale (strobe_lines p) (periods 1 (running_cycles false (strobe p true wants_read (commands xs)) t)).
Proof.
  destruct (exists_two (iface_new (spec_of_std DDR4) None) (calls_run flight)) as (i0 & i & E1 & E2); [vm_compute; reflexivity|].
  destruct (exists_value (stats_after (spec_of_std DDR4) None flight 21) (fun st => ones (ss_readDQS st) =? 8)) as (st & E3 & E4); [vm_compute; reflexivity|].
  pose proof (stats_split _ _ _ _ _ _ _ E1 E2 E3) as E5. clear E3.
  exists (spec_of_std DDR4), flight, 21, i0, i, st. split; [apply sizes|]. split; [exact E1|]. split; [exact E2|]. split; [apply Forall_cons; [reflexivity|apply Forall_nil]|]. split; [reflexivity|]. split; [exact E5|].
  assert (ones (scale (strobe_lines (spec_of_std DDR4)) (periods 1 (running_cycles false (strobe (spec_of_std DDR4) true wants_read (commands flight)) 21))) = 2) as Y by (vm_compute; reflexivity).
  intros X. rewrite X, Y in E4. discriminate E4.
Qed.
Definition slow_wck : ifspec := mkIfspec LPDDR5 2 8 8 1 1 2 4 true MBG 4 (fun n => n) None.
Lemma wck_stands_still : exists p xs i0 i st,
  sizes_ok p /\ two_clocks (fi_std p) = true /\ fi_wck_on p = true /\ 0 < fi_rate p /\ 0 < fi_wck p /\
  iface_new p None = Value i0 /\ calls_run xs i0 = Value i /\ if_window i 200 sim_stats0 = Value st /\ ss_wClock st = stats0.
Proof.
  destruct (exists_two (iface_new slow_wck None) (calls_run flight)) as (i0 & i & E1 & E2); [vm_compute; reflexivity|].
  destruct (exists_value (stats_after slow_wck None flight 200) (fun st => match ss_wClock st with mkStats 0 0 0 0 0 => true | _ => false end)) as (st & E3 & E4); [vm_compute; reflexivity|].
  pose proof (stats_split _ _ _ _ _ _ _ E1 E2 E3) as E5. clear E3.
  exists slow_wck, flight, i0, i, st. split; [(split; [|split]); vm_compute; reflexivity|]. split; [reflexivity|]. split; [reflexivity|]. split; [reflexivity|]. split; [reflexivity|].
  split; [exact E1|]. split; [exact E2|]. split; [exact E5|].
  destruct (ss_wClock st) as [a b c d e]; destruct a, b, c, d, e; try discriminate E4. reflexivity.
Qed.
