(* Consequences of the refinement for self-refresh, power-down, auto-precharge
   and rank activity. *)
From Coq Require Import ZArith NArith List Bool Lia ZifyBool ZifyNat ZifyN.
From Verif Require Import Base Command CoreModel ListFacts CoreBasics HistorySpec CoreHistory DeviceSpec RefineBase RefineSteps RefineRun RefineCmd RefineMain.
Import ListNotations.
Local Open Scope N_scope.

(* ---- lists and times ---- *)

Lemma filter_filter {A} (f g : A -> bool) l : filter f (filter g l) = filter (fun x => g x && f x) l.
Proof.
  induction l as [|x l IH]; cbn; auto. destruct (g x); cbn; [|exact IH].
  destruct (f x); [f_equal|]; exact IH.
Qed.

Lemma filter_none {A} (f : A -> bool) l : (forall x, In x l -> f x = false) -> filter f l = [].
Proof.
  induction l as [|x l IH]; cbn; auto. intros H. rewrite (H x) by auto. apply IH. intros; apply H; auto.
Qed.

Lemma nondecreasing_cat l1 : forall from l2, nondecreasing from (map cmd_ts (l1 ++ l2)) <->
  nondecreasing from (map cmd_ts l1) /\ nondecreasing (final_time from (map cmd_ts l1)) (map cmd_ts l2).
Proof.
  induction l1 as [|c l1 IH]; intros from l2; cbn [app map nondecreasing].
  - unfold final_time; cbn. tauto.
  - rewrite IH. unfold final_time; cbn. tauto.
Qed.

Lemma final_time_cat l1 l2 from :
  final_time from (map cmd_ts (l1 ++ l2)) = final_time (final_time from (map cmd_ts l1)) (map cmd_ts l2).
Proof. unfold final_time. rewrite map_app, fold_left_app. reflexivity. Qed.

Lemma nondecreasing_ge l : forall from, nondecreasing from (map cmd_ts l) ->
  from <= final_time from (map cmd_ts l) /\ (forall c, In c l -> from <= cmd_ts c <= final_time from (map cmd_ts l)).
Proof.
  induction l as [|x l IH]; intros from H; cbn in *.
  - split; [unfold final_time; cbn; lia|]. intros c [].
  - destruct H as [H1 H2]. destruct (IH _ H2) as [I1 I2]. unfold final_time in *; cbn in *. split; [lia|].
    intros c [<-|Hin]; [lia|]. specialize (I2 c Hin). lia.
Qed.

Lemma timely_prefix p l1 l2 T : timely p (l1 ++ l2) T ->
  forall t, final_time 0 (map cmd_ts l1) <= t -> t <= T -> timely p l1 t.
Proof.
  intros [H1 [H2 [H3 [H4 H5]]]] t Ha Hb. apply nondecreasing_cat in H1 as [H1 _].
  unfold no_overflow in H2. rewrite map_app in H2. apply Forall_app in H2 as [H2 _].
  rewrite app_length in H5. repeat split; auto; lia.
Qed.

Lemma run_device_cat p x : forall y d, run_device p (x ++ y) d =
  match run_device p x d with Some d' => run_device p y d' | None => None end.
Proof.
  induction x as [|c x IH]; intros y d; cbn; auto. destruct (command p c (settle (cmd_ts c) d)); auto.
Qed.

Lemma legal_cat p r a z : legal p r (a ++ z) -> legal p r a.
Proof.
  unfold legal. rewrite filter_app, run_device_cat.
  destruct (run_device p (filter (to_rank r) a) (device_new p)); congruence.
Qed.

Lemma legal_history_cat p a z : legal_history p (a ++ z) -> legal_history p a.
Proof.
  intros [H1 H2]. apply Forall_app in H1 as [H1 _]. split; auto. intros r Hr. eapply legal_cat; eauto.
Qed.

(* ---- the views ---- *)

Lemma rank_view_spec p cs t r : well_formed p -> timely p cs t -> legal_history p cs -> (r < ms_ranks p)%nat ->
  rank_view p cs t r = Some (spec_rank p r cs t).
Proof.
  intros W T [L1 L2] Hr. destruct (legal_accepted p cs t W T L1 L2) as [s Hs].
  unfold rank_view. rewrite Hs. apply (stats_are_cycle_counts p cs s r t); auto.
Qed.

Lemma bank_view_spec p cs t r b : well_formed p -> timely p cs t -> legal_history p cs ->
  (r < ms_ranks p)%nat -> (b < ms_banks p)%nat ->
  bank_view p cs t r b = Some (spec_bank p r b cs t).
Proof.
  intros W T [L1 L2] Hr Hb. destruct (legal_accepted p cs t W T L1 L2) as [s Hs].
  unfold bank_view. rewrite Hs. apply (stats_are_cycle_counts p cs s r t); auto.
Qed.

(* ---- counting ---- *)

Lemma count_split P a b : a <= b -> count_below P (N.to_nat b) =
  count_below P (N.to_nat a) + count_below (fun n => P (a + n)) (N.to_nat (b - a)).
Proof.
  intros H. replace (N.to_nat b) with (N.to_nat a + N.to_nat (b - a))%nat by lia.
  generalize (N.to_nat (b - a)) as m. clear H b. induction m as [|m IH].
  - rewrite Nat.add_0_r. cbn. lia.
  - rewrite <- plus_n_Sm. cbn [count_below]. rewrite IH.
    replace (N.of_nat (N.to_nat a + m)) with (a + N.of_nat m) by lia. lia.
Qed.

Lemma count_true m : count_below (fun _ => true) m = N.of_nat m.
Proof. induction m as [|m IH]; cbn [count_below]; [reflexivity|]. rewrite IH. lia. Qed.

Lemma count_lt k m : count_below (fun n => n <? k) m = N.min k (N.of_nat m).
Proof.
  induction m as [|m IH]; cbn [count_below]; [lia|]. rewrite IH. destruct (N.ltb_spec (N.of_nat m) k); lia.
Qed.

Lemma count_ge k m : count_below (fun n => k <=? n) m = N.of_nat m - k.
Proof.
  induction m as [|m IH]; cbn [count_below]; [lia|]. rewrite IH. destruct (N.leb_spec k (N.of_nat m)); lia.
Qed.

Lemma count_add P Q R n : (forall m, (m < n)%nat -> b2N (P (N.of_nat m)) + b2N (Q (N.of_nat m)) = b2N (R (N.of_nat m))) ->
  count_below P n + count_below Q n = count_below R n.
Proof.
  induction n as [|n IH]; intros H; cbn [count_below]; [lia|].
  specialize (IH (fun m Hm => H m (Nat.lt_lt_succ_r _ _ Hm))). specialize (H n (Nat.lt_succ_diag_r _)).
  unfold b2N in H. lia.
Qed.

Definition holds (P : device -> bool) (o : option device) : bool :=
  match o with Some d => P d | None => false end.

(* Cycles before t and cycles since t. *)
Lemma cw_split p l1 l2 t T P :
  (forall c, In c l2 -> t <= cmd_ts c) -> t <= T ->
  cw p (l1 ++ l2) T P =
  cw p l1 t P + count_below (fun n => holds P (dev p (l1 ++ l2) (t + n))) (N.to_nat (T - t)).
Proof.
  intros H2 HT. unfold cw. rewrite (count_split _ t T HT). f_equal.
  apply count_below_ext. intros m Hm. unfold dev. rewrite filter_app.
  rewrite (filter_none _ l2), app_nil_r; [reflexivity|]. intros c Hc. specialize (H2 c Hc). lia.
Qed.

(* Devices keep their number of banks. *)
Lemma settle_len n d : length (dv_banks (settle n d)) = length (dv_banks d).
Proof.
  unfold settle. destruct (dv_pend d) as [[x m]|]; [destruct (x <=? n); [destruct (dv_mode d)|]|]; cbn;
    rewrite ?map_length; reflexivity.
Qed.

Lemma command_len p c d d' : command p c d = Some d' -> length (dv_banks d') = length (dv_banks d).
Proof.
  unfold command. destruct (in_standard p (cmd_type c) && well_addressed p c); [|discriminate].
  assert (up_command p c d = Some d' -> length (dv_banks d') = length (dv_banks d)) as G.
  { unfold up_command, touch. intros HU. destruct (cmd_type c); try discriminate;
      repeat match type of HU with
      | option_map _ _ = Some _ => destruct (guard _ _) eqn:Z in HU; [|discriminate]; cbn in HU; injection HU as <-;
                                   apply guard_some in Z as [_ <-]
      | guard _ _ = Some _ => apply guard_some in HU as [_ <-]
      end; cbn [with_banks with_pend dv_banks]; rewrite ?mapi_length; auto. }
  destruct (cmd_type c), (dv_pend d), (dv_mode d); intros H; try discriminate; auto;
    injection H as <-; reflexivity.
Qed.

Lemma run_device_len p cs : forall d d', run_device p cs d = Some d' -> length (dv_banks d') = length (dv_banks d).
Proof.
  induction cs as [|c cs IH]; intros d d' H; cbn in H; [injection H as <-; auto|].
  destruct (command p c (settle (cmd_ts c) d)) as [d1|] eqn:E; [|discriminate].
  rewrite (IH _ _ H), (command_len _ _ _ _ E), settle_len. reflexivity.
Qed.

Lemma dev_len p cs n d : dev p cs n = Some d -> length (dv_banks d) = ms_banks p.
Proof.
  unfold dev. destruct (run_device p _ (device_new p)) as [d0|] eqn:E; [|discriminate]. cbn. intros H; injection H as <-.
  rewrite settle_len, (run_device_len _ _ _ _ E). cbn. apply repeat_length.
Qed.

(* ---- rank activity ---- *)

Lemma rank_acts_some p d : length (dv_banks d) = ms_banks p -> rank_acts d = some_bank_acts p d.
Proof.
  intros H. unfold rank_acts, some_bank_acts. apply eq_true_iff_eq.
  rewrite andb_true_iff, existsb_nth, existsb_exists. split.
  - intros [[i [x [H1 H2]]] H3]. exists i. split.
    + apply in_seq. apply nth_error_some_lt in H1. lia.
    + unfold bank_acts. rewrite H1, H2, H3. reflexivity.
  - intros [i [H1 H2]]. unfold bank_acts in H2. destruct (nth_error (dv_banks d) i) as [x|] eqn:E; [|discriminate].
    apply andb_true_iff in H2 as [H2 H3]. split; auto. exists i, x. auto.
Qed.

Lemma rank_act_union p r cs t : cycles_where p r cs t rank_acts = cycles_where p r cs t (some_bank_acts p).
Proof.
  rewrite !cycles_where_cw. unfold cw. apply count_below_ext. intros m _.
  destruct (dev p (filter (to_rank r) cs) (N.of_nat m)) as [d|] eqn:E; auto.
  apply rank_acts_some. eapply dev_len; eauto.
Qed.

Lemma count_le P Q n : (forall m, P m = true -> Q m = true) -> count_below P n <= count_below Q n.
Proof.
  intros H. induction n as [|n IH]; cbn [count_below]; [lia|]. specialize (H (N.of_nat n)).
  destruct (P (N.of_nat n)); [rewrite H by auto; lia|]. destruct (Q (N.of_nat n)); lia.
Qed.

Lemma count_or P Q R n : (forall m, R m = true -> P m = true \/ Q m = true) ->
  count_below R n <= count_below P n + count_below Q n.
Proof.
  intros H. induction n as [|n IH]; cbn [count_below]; [lia|]. specialize (H (N.of_nat n)).
  destruct (R (N.of_nat n)); [destruct H as [H|H]; auto; rewrite H|];
    destruct (P (N.of_nat n)), (Q (N.of_nat n)); lia.
Qed.

Definition sumN (l : list N) : N := fold_right N.add 0 l.

Lemma rank_act_bounds p r cs t :
  (forall b, (b < ms_banks p)%nat -> cycles_where p r cs t (bank_acts b) <= cycles_where p r cs t rank_acts) /\
  cycles_where p r cs t rank_acts <= sumN (map (fun b => cycles_where p r cs t (bank_acts b)) (seq 0 (ms_banks p))).
Proof.
  rewrite rank_act_union. split.
  - intros b Hb. unfold cycles_where. apply count_le. intros m. destruct (device_at p r cs m) as [d|]; auto.
    intros H. unfold some_bank_acts. apply existsb_exists. exists b. split; auto. apply in_seq. lia.
  - unfold some_bank_acts. induction (seq 0 (ms_banks p)) as [|b l IH]; cbn [map sumN fold_right].
    + unfold cycles_where. rewrite count_below_zero; [lia|]. intros m. destruct (device_at p r cs m); auto.
    + fold (sumN (map (fun b => cycles_where p r cs t (bank_acts b)) l)).
      etransitivity; [|apply N.add_le_mono_l; exact IH].
      unfold cycles_where. apply count_or. intros m. destruct (device_at p r cs m); [|discriminate].
      cbn. intros H. apply orb_true_iff in H. exact H.
Qed.

(* ---- monotone counts ---- *)

Lemma cycles_where_mono p r cs t P : cycles_where p r cs t P <= cycles_where p r cs (t + 1) P <= cycles_where p r cs t P + 1.
Proof.
  unfold cycles_where. replace (N.to_nat (t + 1)) with (S (N.to_nat t)) by lia. cbn [count_below].
  match goal with |- context [if ?b then 1 else 0] => destruct b end; lia.
Qed.

(* ---- self-refresh ---- *)

Definition all_state (s : bstate) (d : device) : Prop := Forall (fun b => sb_state b = s) (dv_banks d).

Definition sref_wait (e : N) (d : device) : Prop :=
  dv_mode d = Up /\ dv_pend d = Some (e, SelfRef) /\ all_state (Refreshing e) d.
Definition sref_in (deep : bool) (d : device) : Prop :=
  dv_mode d = (if deep then DeepSleep else SelfRef) /\ dv_pend d = None /\ all_state Closed d.
Definition sref_inv (e now : N) (deep : bool) (d : device) : Prop :=
  (sref_wait e d /\ deep = false) \/ (e <= now /\ sref_in deep d).
Definition sref_set (e n : N) (deep : bool) (d : device) : Prop :=
  if n <? e then sref_wait e d /\ deep = false else sref_in deep d.

Lemma sref_settle e now deep d n : sref_inv e now deep d -> now <= n -> sref_set e n deep (settle n d).
Proof.
  unfold sref_set. intros [[[M [P B]] D]|[He [M [P B]]]] Hn.
  - unfold settle. rewrite P. destruct (N.ltb_spec n e) as [H|H], (N.leb_spec e n) as [H'|H']; try lia.
    + split; auto. split; [|split]; cbn; auto. unfold all_state in *; cbn.
      apply Forall_map. eapply Forall_impl; [|exact B]. cbn. intros b Hb. unfold settle_bank. rewrite Hb.
      destruct (N.leb_spec e n); [lia|exact Hb].
    + subst deep. split; [|split]; cbn; auto. unfold all_state in *. rewrite M. cbn.
      apply Forall_map. eapply Forall_impl; [|exact B]. cbn. intros b Hb. unfold settle_bank. rewrite Hb.
      destruct (N.leb_spec e n); [reflexivity|lia].
  - destruct (N.ltb_spec n e); [lia|]. unfold settle. rewrite P. split; [|split]; cbn; auto.
    unfold all_state in *; cbn. apply Forall_map. eapply Forall_impl; [|exact B]. cbn.
    intros b Hb. unfold settle_bank. rewrite Hb. exact Hb.
Qed.

Definition deep_step (c : Command) (deep : bool) : bool :=
  match cmd_type c with DSMEN => true | DSMEX => false | _ => deep end.

Lemma sref_command p c e deep d d' : sref_set e (cmd_ts c) deep d -> command p c d = Some d' ->
  cmd_type c <> SREFEX -> sref_inv e (cmd_ts c) (deep_step c deep) d'.
Proof.
  unfold sref_set, command, deep_step. intros H HC Hx.
  destruct (in_standard p (cmd_type c) && well_addressed p c); [|discriminate].
  destruct (N.ltb_spec (cmd_ts c) e) as [Hlt|Hge].
  - destruct H as [[M [P B]] D]. rewrite M, P in HC.
    destruct (cmd_type c); try discriminate; injection HC as <-; left; split; auto; repeat split; auto.
  - destruct H as [M [P B]]. rewrite M, P in HC. right. split; auto.
    destruct deep, (cmd_type c); try discriminate; try congruence; injection HC as <-; repeat split; auto.
Qed.

Lemma sref_run p l : forall e now deep d d',
  nondecreasing now (map cmd_ts l) -> (forall c, In c l -> cmd_type c <> SREFEX) ->
  sref_inv e now deep d -> run_device p l d = Some d' ->
  sref_inv e (final_time now (map cmd_ts l)) (fold_left (fun s c => deep_step c s) l deep) d'.
Proof.
  induction l as [|c l IH]; intros e now deep d d' Hn Hx HI HR; cbn in HR.
  - injection HR as <-. exact HI.
  - destruct (command p c (settle (cmd_ts c) d)) as [d1|] eqn:E; [|discriminate].
    destruct Hn as [Hn1 Hn2]. unfold final_time; cbn. apply (IH e (cmd_ts c) _ d1); auto.
    + intros; apply Hx; cbn; auto.
    + eapply sref_command; eauto; [eapply sref_settle; eauto|apply Hx; cbn; auto].
Qed.

Lemma sref_enter p c d d' : cmd_type c = SREFEN -> command p c d = Some d' ->
  sref_inv (cmd_ts c + ms_tRFC p) (cmd_ts c) false d'.
Proof.
  unfold command. intros K HC. rewrite K in HC. destruct (in_standard p SREFEN && well_addressed p c); [|discriminate].
  destruct (dv_pend d) eqn:P; [discriminate|]. destruct (dv_mode d) eqn:M; try discriminate.
  unfold up_command in HC. rewrite K in HC.
  destruct (guard _ _) as [d1|] eqn:G in HC; [|discriminate]. cbn in HC. injection HC as <-.
  apply guard_some in G as [_ <-]. left. split; auto. split; [|split]; cbn; auto.
  unfold all_state; cbn. apply Forall_forall. intros x Hx. apply In_nth_error in Hx as [i Hi].
  rewrite nth_error_touch in Hi. unfold footprint in Hi. rewrite K in Hi.
  destruct (nth_error (dv_banks d) i); [|discriminate]. cbn in Hi. injection Hi as <-. reflexivity.
Qed.

Lemma all_state_nth s d b : all_state s d -> (b < length (dv_banks d))%nat ->
  exists sb, nth_error (dv_banks d) b = Some sb /\ sb_state sb = s.
Proof.
  intros H Hb. destruct (nth_error_lt _ _ Hb) as [sb Hs]. exists sb. split; auto.
  unfold all_state in H. rewrite Forall_forall in H. apply H. eapply nth_error_In; eauto.
Qed.

Lemma all_state_exists d : all_state Closed d -> existsb busy (dv_banks d) = false.
Proof.
  intros H. unfold all_state in H. induction (dv_banks d) as [|b l IH]; cbn; auto.
  inversion H; subst. rewrite IH by auto. unfold busy. rewrite H2. reflexivity.
Qed.

Lemma sref_cycle e n deep d b : (b < length (dv_banks d))%nat -> sref_set e n deep d ->
  bank_acts b d = (n <? e) /\ bank_idles b d = false /\ rank_acts d = (n <? e) /\ rank_idles d = false /\
  mode_is ActPd d = false /\ mode_is PrePd d = false /\
  mode_is SelfRef d = negb (n <? e) && negb deep /\ mode_is DeepSleep d = deep /\ (deep = true -> e <= n).
Proof.
  intros Hb. unfold sref_set. destruct (N.ltb_spec n e) as [H|H].
  - intros [[M [P B]] ->]. destruct (all_state_nth _ _ _ B Hb) as [sb [Hs S]].
    assert (existsb busy (dv_banks d) = true) as EB.
    { apply existsb_nth. exists b, sb. split; auto. unfold busy. rewrite S. reflexivity. }
    unfold bank_acts, bank_idles, rank_acts, rank_idles, mode_is. rewrite Hs, M, EB. unfold busy. rewrite S. cbn.
    repeat split; auto; discriminate.
  - intros [M [P B]]. destruct (all_state_nth _ _ _ B Hb) as [sb [Hs S]].
    unfold bank_acts, bank_idles, rank_acts, rank_idles, mode_is. rewrite Hs, M, (all_state_exists d B). unfold busy. rewrite S. cbn.
    destruct deep; repeat split; auto.
Qed.
