(* The clock: a history of starts and stops, and when the clock runs. *)
From Coq Require Import NArith ZArith Lia List Bool Sorting.Sorted.
From Verif Require Import Base Bits BusModel WaveSpec BitFacts.
Import ListNotations.
Local Open Scope N_scope.

(* ---- specification ---- *)

(* Requests to a clock. *)
Inductive clock_op := Stop (t : N) | Start (t : N).
Definition op_time (o : clock_op) : N := match o with Stop t => t | Start t => t end.
Definition starts (o : clock_op) : bool := match o with Stop _ => false | Start _ => true end.

(* Whether the clock runs during cycle i: decided by the last request at or
   before i. *)
Definition running (on : bool) (ops : list clock_op) (i : N) : bool :=
  fold_left (fun r o => if op_time o <=? i then starts o else r) ops on.

(* Number of cycles before t in which the clock runs. *)
Definition running_cycles (on : bool) (ops : list clock_op) (t : N) : N :=
  lines (N.to_nat t) (fun i => running on ops (N.of_nat i)).

(* Requests in order of time, none before [from], none after [until]. *)
Fixpoint in_order (from until : N) (ops : list clock_op) : Prop :=
  match ops with
  | [] => from <= until
  | o :: r => from <= op_time o /\ in_order (op_time o) until r
  end.

(* Starts and stops alternate and every running stretch has a cycle. *)
Fixpoint alternating (since : option N) (ops : list clock_op) : Prop :=
  match ops, since with
  | [], _ => True
  | Stop t :: r, Some s => s < t /\ alternating None r
  | Start t :: r, None => alternating (Some t) r
  | _, _ => False
  end.

(* Statistics of n clock periods of [half] high and [half] low half-beats. *)
Definition periods (half n : N) : bus_stats :=
  mkStats (half * n) (half * n) (2 * (half * n)) (half * n) (half * n).

(* ---- the model runs a history ---- *)
Definition clock_do (o : clock_op) (c : clock) : result clock :=
  match o with Stop t => clock_stop c t | Start t => clock_start c t end.
Definition clock_run (ops : list clock_op) (c : clock) : result clock := loop clock_do ops c.

(* ---- proofs ---- *)
Definition span (f : N -> bool) (a b : N) : N := lines (N.to_nat (b - a)) (fun i => f (a + N.of_nat i)).

Lemma lines_app m n f : lines (m + n) f = lines m f + lines n (fun j => f (m + j)%nat).
Proof.
  induction n; [rewrite Nat.add_0_r, lines_0; lia|].
  rewrite Nat.add_succ_r, !lines_snoc, IHn. lia.
Qed.

Lemma span_split f a b c : a <= b -> b <= c -> span f a c = span f a b + span f b c.
Proof.
  intros H1 H2. unfold span. replace (N.to_nat (c - a)) with (N.to_nat (b - a) + N.to_nat (c - b))%nat by lia.
  rewrite lines_app. f_equal. apply lines_ext. intros j _. f_equal. lia.
Qed.

Lemma span_ext f g a b : (forall i, a <= i -> i < b -> f i = g i) -> span f a b = span g a b.
Proof. intros H. apply lines_ext. intros j Hj. apply H; lia. Qed.

Lemma lines_const k b : lines k (fun _ => b) = if b then N.of_nat k else 0.
Proof. induction k; [destruct b; reflexivity|]. rewrite lines_snoc, IHk. destruct b; lia. Qed.

Lemma span_const b x y : span (fun _ => b) x y = if b then y - x else 0.
Proof. unfold span. rewrite lines_const. destruct b; lia. Qed.

Lemma running_before on ops i a u : in_order a u ops -> i < a -> running on ops i = on.
Proof.
  revert on a. induction ops as [|o r IH]; intros on a H Hi; [reflexivity|]. destruct H as [H1 H2].
  unfold running. cbn [fold_left]. destruct (N.leb_spec (op_time o) i); [lia|]. eapply IH; [exact H2|lia].
Qed.

Lemma in_order_le ops : forall a u, in_order a u ops -> a <= u.
Proof. induction ops as [|o r IH]; intros a u H; cbn in H; [exact H|]. destruct H as [H1 H2]. apply IH in H2. lia. Qed.

Definition clock_inv (half : N) (from : N) (on : bool) (R : N) (c : clock) : Prop :=
  ck_rate c = 2 * half /\ ck_start c = (if on then Some from else None) /\
  ck_stats c = wrap_stats (periods half R).

Lemma clock_count_periods half d : d * (2 * half) < two64 -> clock_count (2 * half) d = wrap_stats (periods half d).
Proof.
  intros H. unfold clock_count, u64_mul. rewrite (N.mod_small _ _ H).
  replace (d * (2 * half)) with (half * d * 2) by lia. rewrite N.div_mul by lia.
  unfold wrap_stats, periods, u64_add. cbn [ones zeroes changes o2z z2o].
  rewrite (N.mod_small (half * d)) by lia. f_equal. f_equal. lia.
Qed.

Lemma periods_add half m n : add_exact (periods half m) (periods half n) = periods half (m + n).
Proof. unfold add_exact, periods. cbn [ones zeroes changes o2z z2o]. f_equal; lia. Qed.

Lemma clock_sub t s : s <= t -> t < two64 -> u64_sub t s = t - s.
Proof.
  intros H Ht. unfold u64_sub. rewrite (N.mod_small s) by lia.
  replace (t + two64 - s) with (t - s + 1 * two64) by lia. rewrite N.mod_add by (unfold two64; lia). apply N.mod_small. lia.
Qed.

Lemma clock_run_inv half ops : forall from on R c t, clock_inv half from on R c ->
  in_order from t ops -> t * (2 * half) < two64 -> t < two64 ->
  forall c', clock_run ops c = Value c' ->
  clock_get c' t = wrap_stats (periods half (R + span (running on ops) from t)).
Proof.
  induction ops as [|o r IH]; intros from on R c t [I1 [I2 I3]] O H H64 c' E.
  - cbn in E. injection E as <-. cbn [in_order] in O. unfold clock_get. rewrite I2.
    rewrite (span_ext _ (fun _ => on)) by reflexivity. rewrite span_const. destruct on.
    + rewrite I1, I3, clock_sub, clock_count_periods by nia. rewrite stats_add_wrap, periods_add. reflexivity.
    + rewrite N.add_0_r. exact I3.
  - destruct O as [O1 O2]. pose proof (in_order_le _ _ _ O2) as O3.
    unfold clock_run in E. cbn [loop] in E.
    assert (span (running on (o :: r)) from t = (if on then op_time o - from else 0) + span (running (starts o) r) (op_time o) t) as Sp.
    { rewrite (span_split _ from (op_time o) t) by lia. f_equal.
      - rewrite (span_ext _ (fun _ => on)); [apply span_const|]. intros i Hi1 Hi2.
        eapply (running_before on (o :: r) i (op_time o) t); [split; [lia|exact O2]|exact Hi2].
      - apply span_ext. intros i Hi1 Hi2. unfold running. cbn [fold_left]. destruct (N.leb_spec (op_time o) i); [reflexivity|lia]. }
    rewrite Sp, N.add_assoc.
    destruct o as [u|u]; cbn [clock_do op_time starts] in *.
    + unfold clock_stop in E. rewrite I2 in E. destruct on; [|discriminate].
      unfold check in E. destruct (N.ltb_spec from u); [|discriminate]. cbn [bind] in E.
      refine (IH u false (R + (u - from)) _ t _ O2 H H64 c' E).
      split; [exact I1|]. split; [reflexivity|]. cbn [ck_stats].
      rewrite I1, I3, clock_sub, clock_count_periods by nia. rewrite stats_add_wrap, periods_add. reflexivity.
    + unfold clock_start in E. rewrite I2 in E. destruct on; [discriminate|]. cbn [bind] in E.
      refine (IH u true (R + 0) _ t _ O2 H H64 c' E).
      split; [exact I1|]. split; [reflexivity|]. cbn [ck_stats]. rewrite N.add_0_r. exact I3.
Qed.

Theorem clock_counts half stopped ops t c :
  in_order 0 t ops -> t * (2 * half) < two64 -> t < two64 ->
  clock_run ops (clock_new (2 * half) stopped) = Value c ->
  clock_get c t = wrap_stats (periods half (running_cycles (negb stopped) ops t)).
Proof.
  intros O H H64 E. rewrite (clock_run_inv half ops 0 (negb stopped) 0 (clock_new (2 * half) stopped) t) with (c' := c); auto.
  2: { split; [reflexivity|]. split; [destruct stopped; reflexivity|].
       unfold periods. rewrite N.mul_0_r. reflexivity. }
  rewrite N.add_0_l. unfold span, running_cycles. rewrite N.sub_0_r. do 2 f_equal.
Qed.

Theorem clock_accepts ops : forall c,
  (exists c', clock_run ops c = Value c') <-> alternating (ck_start c) ops.
Proof.
  induction ops as [|o r IH]; intros c.
  - split; [reflexivity|]. intros _. exists c. reflexivity.
  - unfold clock_run. cbn [loop alternating]. destruct o as [u|u]; cbn [clock_do].
    + unfold clock_stop. destruct (ck_start c) as [s|].
      * unfold check. destruct (N.ltb_spec s u); cbn [bind].
        -- rewrite (IH (mkClock _ _ _)). cbn [ck_start]. tauto.
        -- split; [intros [? X]; discriminate|intros [X _]; lia].
      * cbn [bind]. split; [intros [? X]; discriminate|intros []].
    + unfold clock_start. destruct (ck_start c) as [s|]; cbn [bind].
      * split; [intros [? X]; discriminate|intros []].
      * rewrite (IH (mkClock _ _ _)). cbn [ck_start]. tauto.
Qed.
