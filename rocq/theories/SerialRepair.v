(* C30: what can be repaired after reading, and what cannot. *)
From Coq Require Import NArith List Bool Lia.
From Verif Require Import Base Command CoreModel Bits BusModel StatsModel PatternModel DbiModel DbiPinModel InterfaceModel InterfaceSpec SerialModel SerialSpec InterfaceCa SerialIface IndepProofs.
Import ListNotations.
Local Open Scope N_scope.
Ltac Zify.zify_post_hook ::= idtac.

Definition with_meta (m : N * N) (i : iface) : iface :=
  mkIface (if_spec i) (if_cmd i) (if_data i) (if_rdqs i) (if_wdqs i) (if_wck i) (if_clock i) (if_dbi i) (if_ranks i) (if_pat i) (if_last i) m (if_buf i) (if_enabled i).

Lemma new_facts p sim i0 : iface_new p sim = Value i0 -> asleep (if_dbi i0) /\ if_spec i0 = p /\ (fi_std (if_spec i0) = DDR5 -> if_dbi i0 = None) /\ if_enabled i0 = true.
Proof.
  intros N. destruct (new_build _ _ _ N) as (_ & S & A). split; [exact A|]. split; [exact S|].
  unfold iface_new in N. cbv zeta in N. repeat (apply bind_inv in N as (? & ? & N)). apply value_eq in N. subst i0. cbn in *. split; [|reflexivity].
  intros E. unfold new_dbi in *. rewrite E in *. congruence.
Qed.
Lemma hidden_but_meta p sim i0 xs i : iface_new p sim = Value i0 -> calls_run xs i0 = Value i ->
  forallb (fun x => kept (fi_std p) x || is_meta x) xs = true -> hidden (with_meta (if_meta i) i0) i.
Proof.
  intros N H K. destruct (new_facts _ _ _ N) as (A & S & D5 & On).
  refine (loop_keeps (fun i => hidden (with_meta (if_meta i) i0) i) _ _ _ _ _ _ H).
  - intros x a a' X B E. rewrite forallb_forall in K. specialize (K x X). apply orb_prop in K as [K|K].
    + assert (hidden (with_meta (if_meta a) i0) a') as C by (eapply call_hidden; try eassumption; cbn; now rewrite S).
      pose proof (hd_meta _ _ C) as M. cbn in M. now rewrite M.
    + destruct x; try discriminate K. cbn [call_do] in E. apply value_eq in E. subst a'. destruct B. constructor; cbn in *; auto.
  - constructor; cbn; auto.
Qed.
Definition mod16 (m : N * N) : N * N := (fst m mod 65536, snd m mod 65536).
Lemma call_state x i i' : call_do x i = Value i' ->
  if_meta i' = match x with SetMeta a b => mod16 (a, b) | _ => if_meta i end /\
  if_enabled i' = match x with Enable _ => true | Disable _ => false | _ => if_enabled i end /\
  ((if_enabled i = false -> ck_start (if_clock i) = None) -> if_enabled i' = false -> ck_start (if_clock i') = None).
Proof.
  intros E. destruct x as [c|e|a b|e|t|t].
  - cbn [call_do] in E. destruct (transfers (cmd_type c)) as [read|] eqn:T.
    + destruct (transfer_parts _ _ _ _ T E) as (x & i2 & i3 & Z). decompose [and] Z. split; [assumption|]. split; [assumption|]. intros K F. replace (if_clock i') with (if_clock i) by congruence. apply K. congruence.
    + pose proof (other_parts _ _ _ T E) as Z. decompose [and] Z. split; [assumption|]. split; [assumption|]. intros K F. replace (if_clock i') with (if_clock i) by congruence. apply K. congruence.
  - destruct (call_frame (SetDbi e) _ _ ltac:(discriminate) E) as (_ & _ & _ & _ & _ & _ & _ & _ & M & _ & _ & C & O). split; [exact M|]. split; [exact O|]. intros K F. rewrite C. apply K. congruence.
  - destruct (call_frame (SetMeta a b) _ _ ltac:(discriminate) E) as (_ & _ & _ & _ & _ & _ & _ & _ & M & _ & _ & C & O). split; [exact M|]. split; [exact O|]. intros K F. rewrite C. apply K. congruence.
  - destruct (call_frame (SetParity e) _ _ ltac:(discriminate) E) as (_ & _ & _ & _ & _ & _ & _ & _ & M & _ & _ & C & O). split; [exact M|]. split; [exact O|]. intros K F. rewrite C. apply K. congruence.
  - cbn [call_do] in E. unfold if_enable in E. destruct (if_enabled i) eqn:O.
    + apply value_eq in E. subst i'. split; [reflexivity|]. split; [exact O|]. intros _ F. congruence.
    + do 2 (apply bind_inv in E as (? & _ & E)). apply value_eq in E. subst i'. cbn. repeat split. discriminate.
  - cbn [call_do] in E. unfold if_disable in E. destruct (if_enabled i) eqn:O.
    + apply bind_inv in E as (k & _ & E). apply bind_inv in E as (c & C & E). apply value_eq in E. subst i'. cbn. repeat split. intros _ _.
      unfold clock_stop in C. destruct (ck_start (if_clock i)); [|discriminate]. apply check_inv in C as [_ C]. apply value_eq in C. now subst c.
    + apply value_eq in E. subst i'. split; [reflexivity|]. split; [exact O|]. auto.
Qed.

Lemma run_last_meta : forall xs i i' m, calls_run xs i = Value i' -> (forall ab, m = Some ab -> if_meta i = mod16 ab) ->
  forall ab, fold_left (fun m x => match x with SetMeta a b => Some (a, b) | _ => m end) xs m = Some ab -> if_meta i' = mod16 ab.
Proof.
  induction xs as [|x xs IH]; intros i i' m H M ab L.
  - cbn in H, L. apply value_eq in H. subst i'. now apply M.
  - unfold calls_run in H. cbn [loop] in H. apply bind_inv in H as (j & J & H). cbn [fold_left] in L. destruct (call_state _ _ _ J) as (Q & _).
    refine (IH j i' _ H _ ab L). intros ab' E. destruct x; rewrite Q; try (now apply M). injection E as <-. reflexivity.
Qed.
Lemma run_off : forall xs i i', calls_run xs i = Value i' -> (if_enabled i = false -> ck_start (if_clock i) = None) ->
  if_enabled i' = negb (fold_left (fun off x => match x with Enable _ => false | Disable _ => true | _ => off end) xs (negb (if_enabled i))) /\
  (if_enabled i' = false -> ck_start (if_clock i') = None).
Proof.
  induction xs as [|x xs IH]; intros i i' H C.
  - cbn in H |- *. apply value_eq in H. subst i'. split; [now rewrite negb_involutive|exact C].
  - unfold calls_run in H. cbn [loop] in H. apply bind_inv in H as (j & J & H). cbn [fold_left]. destruct (call_state _ _ _ J) as (_ & Q & R).
    destruct (IH j i' H (R C)) as [A B]. split; [|exact B]. rewrite A, Q. now destruct x.
Qed.

Lemma meta_repaired p sim i0 xs i order rest a b :
  iface_new p sim = Value i0 -> calls_run xs i0 = Value i -> forallb (fun x => kept (fi_std p) x || is_meta x) xs = true -> last_meta xs = Some (a, b) ->
  traversal order (settings_of (if_pat i)) -> Forall (fun b => b <= 1) (kept_beats i) ->
  exists j, r_iface i0 (w_iface order i ++ rest) = Got j rest /\ forall later, watch (Call (SetMeta a b) :: later) j = Done (if_last i) :: watch later i.
Proof.
  intros N H K L T B. pose proof (hidden_but_meta _ _ _ _ _ N H K) as Hd.
  destruct (checkpoint_any _ _ _ _ _ order rest N H T) as [(_ & j & R & W)|[X _]].
  2: { exfalso. rewrite Forall_forall in B. apply Exists_exists in X as (x & X1 & X2). specialize (B x X1). lia. }
  exists j. split; [exact R|]. intros later. rewrite W. cbn [watch call_do]. cbn [if_set_meta if_last forgetful]. f_equal. f_equal.
  assert (if_meta i = mod16 (a, b)) as M by (refine (run_last_meta xs i0 i None H _ (a, b) L); discriminate).
  destruct Hd as [S _ O D Rk Wk Wd]. cbn in S, O, D, Rk, Wk, Wd. unfold mod16 in M. cbn in M. rewrite <- S in *.
  unfold if_set_meta, forgetful. cbn. rewrite <- M, <- O. destruct i as [s c d rd wd wk ck di rk pt la me bu en]. cbn in *. clear N H K L T B R W.
  destruct (fi_std s); cbn in *; rewrite ?D, ?Rk, ?Wk, ?Wd by (reflexivity || discriminate); reflexivity.
Qed.
Lemma off_stuck p sim i0 xs i order rest :
  iface_new p sim = Value i0 -> calls_run xs i0 = Value i -> fi_std p = LPDDR6 -> switched_off xs = true -> traversal order (settings_of (if_pat i)) ->
  exists j, r_iface i0 (w_iface order i ++ rest) = Got j rest /\
    (forall t later, watch (Call (Disable t) :: later) j = [Stopped Assertion]) /\
    (forall t later, watch (Call (Enable t) :: later) j = Done (if_last i) :: watch later j).
Proof.
  intros N H P6 O T. destruct (new_facts _ _ _ N) as (_ & S & _ & On).
  assert (if_enabled i = false /\ ck_start (if_clock i) = None) as [Off C].
  { destruct (run_off xs i0 i H) as [A B]; [congruence|]. rewrite On in A. cbn in A. unfold switched_off in O. rewrite O in A. cbn in A. auto. }
  assert (fi_std (if_spec i) = LPDDR6) as P by (rewrite (sb_spec _ _ (run_build _ _ _ _ _ N H)), S; exact P6).
  destruct (checkpoint_any _ _ _ _ _ order rest N H T) as [(_ & j & R & W)|[X _]].
  2: { exfalso. unfold kept_beats in X. rewrite P in X. inversion X. }
  exists j. split; [exact R|]. split; intros t later; rewrite W; cbn [watch call_do].
  - unfold if_disable. cbn [forgetful if_enabled]. rewrite On. unfold forgetful. rewrite P. cbn. unfold clock_stop at 2. rewrite C.
    destruct (fi_wck_on (if_spec i)); cbn; [|reflexivity]. unfold clock_stop. destruct (ck_start (if_wck i)); [|reflexivity]. unfold check. now destruct (n <? t).
  - unfold if_enable. cbn [forgetful if_enabled]. rewrite On. rewrite W. reflexivity.
Qed.
